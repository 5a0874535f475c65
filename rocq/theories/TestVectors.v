(** The expectations of the library's own tests, as a check of the model: the calls of the test classes below, made in the model,
    give what the tests expect. Nothing else depends on this file. Where a test compares with java.util.Formatter or Double.toString,
    the expected text was written out. Tests of date formats are left out. *)
From Verif Require Import Base Digits UtilsM SeqM ContextM CompilerM IntFormM FormatterM MathM DecimalM FPDecimalM DoubleM BigDecM RoundM TraitsM ArgsM ImplM MiscM.
Open Scope Z_scope.

Fixpoint same (a b : list Z) : bool :=
  match a, b with [] , [] => true | x :: a, y :: b => (x =? y) && same a b | _, _ => false end.

(** Double.toString is taken from the library's own algorithm; one test parses a double *)
Definition J_test : jdk := mkJdk (fun b => match d2d_toString b with Ok t => t | Err _ => [] end) (fun _ => [])
  (fun t => if same t (txt "3.1416") then Some 4614256673094690983 else None) (fun f t => Ok [])
  (fun i => Ok (TZoned 0)) (fun _ => None) (fun _ => []) (fun _ => []) (fun c => if (48 <=? c) && (c <=? 57) then Some (c - 48) else None).

(** ** Calls: format string, arguments, expected text *)
Definition vector := (list Z * list jobject * list Z)%type.
Definition call (f : list Z) (args : list jobject) : res (list Z) :=
  match compile (fun _ => true) f with
  | Ok ds => format J_test ds (iterator (argsOf J_test (Some args)))
  | Err e => Err e
  end.
Definition passes (v : vector) : bool :=
  let '(f, args, expected) := v in match call f args with Ok t => same t expected | Err _ => false end.

(** LibcCasesTest.java *)
Definition libc : list vector := [
  ((txt "Hallo heimur"), [], (txt "Hallo heimur"));
  ((txt "%s"), [(JRef (VStr (txt "Hallo heimur")) (txt "java.lang.String") 1)], (txt "Hallo heimur"));
  ((txt "%d"), [(JRef (VInt 1024) (txt "java.lang.Integer") 1)], (txt "1024"));
  ((txt "%d"), [(JRef (VInt (-1024)) (txt "java.lang.Integer") 1)], (txt "-1024"));
  ((txt "%i"), [(JRef (VInt 1024) (txt "java.lang.Integer") 1)], (txt "1024"));
  ((txt "%i"), [(JRef (VInt (-1024)) (txt "java.lang.Integer") 1)], (txt "-1024"));
  ((txt "%u"), [(JRef (VInt 1024) (txt "java.lang.Integer") 1)], (txt "1024"));
  ((txt "%u"), [(JRef (VInt (-1024)) (txt "java.lang.Integer") 1)], (txt "4294966272"));
  ((txt "%o"), [(JRef (VInt 511) (txt "java.lang.Integer") 1)], (txt "777"));
  ((txt "%o"), [(JRef (VInt (-511)) (txt "java.lang.Integer") 1)], (txt "37777777001"));
  ((txt "%x"), [(JRef (VInt 305441741) (txt "java.lang.Integer") 1)], (txt "1234abcd"));
  ((txt "%x"), [(JRef (VInt (-305441741)) (txt "java.lang.Integer") 1)], (txt "edcb5433"));
  ((txt "%X"), [(JRef (VInt 305441741) (txt "java.lang.Integer") 1)], (txt "1234ABCD"));
  ((txt "%X"), [(JRef (VInt (-305441741)) (txt "java.lang.Integer") 1)], (txt "EDCB5433"));
  ((txt "%c"), [(JRef (VChar 120) (txt "java.lang.Character") 1)], (txt "x"));
  ((txt "%%"), [], (txt "%"));
  ((txt "%c"), [(JRef (VChar 0) (txt "java.lang.Character") 1)], [0]);
  ((txt "%+s"), [(JRef (VStr (txt "Hallo heimur")) (txt "java.lang.String") 1)], (txt "Hallo heimur"));
  ((txt "%+d"), [(JRef (VInt 1024) (txt "java.lang.Integer") 1)], (txt "+1024"));
  ((txt "%+d"), [(JRef (VInt (-1024)) (txt "java.lang.Integer") 1)], (txt "-1024"));
  ((txt "%+i"), [(JRef (VInt 1024) (txt "java.lang.Integer") 1)], (txt "+1024"));
  ((txt "%+i"), [(JRef (VInt (-1024)) (txt "java.lang.Integer") 1)], (txt "-1024"));
  ((txt "%+u"), [(JRef (VInt 1024) (txt "java.lang.Integer") 1)], (txt "1024"));
  ((txt "%+u"), [(JRef (VInt (-1024)) (txt "java.lang.Integer") 1)], (txt "4294966272"));
  ((txt "%+o"), [(JRef (VInt 511) (txt "java.lang.Integer") 1)], (txt "777"));
  ((txt "%+o"), [(JRef (VInt (-511)) (txt "java.lang.Integer") 1)], (txt "37777777001"));
  ((txt "%+x"), [(JRef (VInt 305441741) (txt "java.lang.Integer") 1)], (txt "1234abcd"));
  ((txt "%+x"), [(JRef (VInt (-305441741)) (txt "java.lang.Integer") 1)], (txt "edcb5433"));
  ((txt "%+X"), [(JRef (VInt 305441741) (txt "java.lang.Integer") 1)], (txt "1234ABCD"));
  ((txt "%+X"), [(JRef (VInt (-305441741)) (txt "java.lang.Integer") 1)], (txt "EDCB5433"));
  ((txt "%+c"), [(JRef (VChar 120) (txt "java.lang.Character") 1)], (txt "x"));
  ((txt "% s"), [(JRef (VStr (txt "Hallo heimur")) (txt "java.lang.String") 1)], (txt "Hallo heimur"));
  ((txt "% d"), [(JRef (VInt 1024) (txt "java.lang.Integer") 1)], (txt " 1024"));
  ((txt "% d"), [(JRef (VInt (-1024)) (txt "java.lang.Integer") 1)], (txt "-1024"));
  ((txt "% i"), [(JRef (VInt 1024) (txt "java.lang.Integer") 1)], (txt " 1024"));
  ((txt "% i"), [(JRef (VInt (-1024)) (txt "java.lang.Integer") 1)], (txt "-1024"));
  ((txt "% u"), [(JRef (VInt 1024) (txt "java.lang.Integer") 1)], (txt "1024"));
  ((txt "% u"), [(JRef (VInt (-1024)) (txt "java.lang.Integer") 1)], (txt "4294966272"));
  ((txt "% o"), [(JRef (VInt 511) (txt "java.lang.Integer") 1)], (txt "777"));
  ((txt "% o"), [(JRef (VInt (-511)) (txt "java.lang.Integer") 1)], (txt "37777777001"));
  ((txt "% x"), [(JRef (VInt 305441741) (txt "java.lang.Integer") 1)], (txt "1234abcd"));
  ((txt "% x"), [(JRef (VInt (-305441741)) (txt "java.lang.Integer") 1)], (txt "edcb5433"));
  ((txt "% X"), [(JRef (VInt 305441741) (txt "java.lang.Integer") 1)], (txt "1234ABCD"));
  ((txt "% X"), [(JRef (VInt (-305441741)) (txt "java.lang.Integer") 1)], (txt "EDCB5433"));
  ((txt "% c"), [(JRef (VChar 120) (txt "java.lang.Character") 1)], (txt "x"));
  ((txt "%+ s"), [(JRef (VStr (txt "Hallo heimur")) (txt "java.lang.String") 1)], (txt "Hallo heimur"));
  ((txt "%+ d"), [(JRef (VInt 1024) (txt "java.lang.Integer") 1)], (txt "+1024"));
  ((txt "%+ d"), [(JRef (VInt (-1024)) (txt "java.lang.Integer") 1)], (txt "-1024"));
  ((txt "%+ i"), [(JRef (VInt 1024) (txt "java.lang.Integer") 1)], (txt "+1024"));
  ((txt "%+ i"), [(JRef (VInt (-1024)) (txt "java.lang.Integer") 1)], (txt "-1024"));
  ((txt "%+ u"), [(JRef (VInt 1024) (txt "java.lang.Integer") 1)], (txt "1024"));
  ((txt "%+ u"), [(JRef (VInt (-1024)) (txt "java.lang.Integer") 1)], (txt "4294966272"));
  ((txt "%+ o"), [(JRef (VInt 511) (txt "java.lang.Integer") 1)], (txt "777"));
  ((txt "%+ o"), [(JRef (VInt (-511)) (txt "java.lang.Integer") 1)], (txt "37777777001"));
  ((txt "%+ x"), [(JRef (VInt 305441741) (txt "java.lang.Integer") 1)], (txt "1234abcd"));
  ((txt "%+ x"), [(JRef (VInt (-305441741)) (txt "java.lang.Integer") 1)], (txt "edcb5433"));
  ((txt "%+ X"), [(JRef (VInt 305441741) (txt "java.lang.Integer") 1)], (txt "1234ABCD"));
  ((txt "%+ X"), [(JRef (VInt (-305441741)) (txt "java.lang.Integer") 1)], (txt "EDCB5433"));
  ((txt "%+ c"), [(JRef (VChar 120) (txt "java.lang.Character") 1)], (txt "x"));
  ((txt "%#o"), [(JRef (VInt 511) (txt "java.lang.Integer") 1)], (txt "0777"));
  ((txt "%#o"), [(JRef (VInt (-511)) (txt "java.lang.Integer") 1)], (txt "037777777001"));
  ((txt "%#x"), [(JRef (VInt 305441741) (txt "java.lang.Integer") 1)], (txt "0x1234abcd"));
  ((txt "%#x"), [(JRef (VInt (-305441741)) (txt "java.lang.Integer") 1)], (txt "0xedcb5433"));
  ((txt "%#X"), [(JRef (VInt 305441741) (txt "java.lang.Integer") 1)], (txt "0X1234ABCD"));
  ((txt "%#X"), [(JRef (VInt (-305441741)) (txt "java.lang.Integer") 1)], (txt "0XEDCB5433"));
  ((txt "%#o"), [(JRef (VInt 0) (txt "java.lang.Integer") 1)], (txt "0"));
  ((txt "%#x"), [(JRef (VInt 0) (txt "java.lang.Integer") 1)], (txt "0"));
  ((txt "%#X"), [(JRef (VInt 0) (txt "java.lang.Integer") 1)], (txt "0"));
  ((txt "%1s"), [(JRef (VStr (txt "Hallo heimur")) (txt "java.lang.String") 1)], (txt "Hallo heimur"));
  ((txt "%1d"), [(JRef (VInt 1024) (txt "java.lang.Integer") 1)], (txt "1024"));
  ((txt "%1d"), [(JRef (VInt (-1024)) (txt "java.lang.Integer") 1)], (txt "-1024"));
  ((txt "%1i"), [(JRef (VInt 1024) (txt "java.lang.Integer") 1)], (txt "1024"));
  ((txt "%1i"), [(JRef (VInt (-1024)) (txt "java.lang.Integer") 1)], (txt "-1024"));
  ((txt "%1u"), [(JRef (VInt 1024) (txt "java.lang.Integer") 1)], (txt "1024"));
  ((txt "%1u"), [(JRef (VInt (-1024)) (txt "java.lang.Integer") 1)], (txt "4294966272"));
  ((txt "%1o"), [(JRef (VInt 511) (txt "java.lang.Integer") 1)], (txt "777"));
  ((txt "%1o"), [(JRef (VInt (-511)) (txt "java.lang.Integer") 1)], (txt "37777777001"));
  ((txt "%1x"), [(JRef (VInt 305441741) (txt "java.lang.Integer") 1)], (txt "1234abcd"));
  ((txt "%1x"), [(JRef (VInt (-305441741)) (txt "java.lang.Integer") 1)], (txt "edcb5433"));
  ((txt "%1X"), [(JRef (VInt 305441741) (txt "java.lang.Integer") 1)], (txt "1234ABCD"));
  ((txt "%1X"), [(JRef (VInt (-305441741)) (txt "java.lang.Integer") 1)], (txt "EDCB5433"));
  ((txt "%1c"), [(JRef (VChar 120) (txt "java.lang.Character") 1)], (txt "x"));
  ((txt "%20s"), [(JRef (VStr (txt "Hallo")) (txt "java.lang.String") 1)], (txt "               Hallo"));
  ((txt "%20d"), [(JRef (VInt 1024) (txt "java.lang.Integer") 1)], (txt "                1024"));
  ((txt "%20d"), [(JRef (VInt (-1024)) (txt "java.lang.Integer") 1)], (txt "               -1024"));
  ((txt "%20i"), [(JRef (VInt 1024) (txt "java.lang.Integer") 1)], (txt "                1024"));
  ((txt "%20i"), [(JRef (VInt (-1024)) (txt "java.lang.Integer") 1)], (txt "               -1024"));
  ((txt "%20u"), [(JRef (VInt 1024) (txt "java.lang.Integer") 1)], (txt "                1024"));
  ((txt "%20u"), [(JRef (VInt (-1024)) (txt "java.lang.Integer") 1)], (txt "          4294966272"));
  ((txt "%20o"), [(JRef (VInt 511) (txt "java.lang.Integer") 1)], (txt "                 777"));
  ((txt "%20o"), [(JRef (VInt (-511)) (txt "java.lang.Integer") 1)], (txt "         37777777001"));
  ((txt "%20x"), [(JRef (VInt 305441741) (txt "java.lang.Integer") 1)], (txt "            1234abcd"));
  ((txt "%20x"), [(JRef (VInt (-305441741)) (txt "java.lang.Integer") 1)], (txt "            edcb5433"));
  ((txt "%20X"), [(JRef (VInt 305441741) (txt "java.lang.Integer") 1)], (txt "            1234ABCD"));
  ((txt "%20X"), [(JRef (VInt (-305441741)) (txt "java.lang.Integer") 1)], (txt "            EDCB5433"));
  ((txt "%20c"), [(JRef (VChar 120) (txt "java.lang.Character") 1)], (txt "                   x"));
  ((txt "%-20s"), [(JRef (VStr (txt "Hallo")) (txt "java.lang.String") 1)], (txt "Hallo               "));
  ((txt "%-20d"), [(JRef (VInt 1024) (txt "java.lang.Integer") 1)], (txt "1024                "));
  ((txt "%-20d"), [(JRef (VInt (-1024)) (txt "java.lang.Integer") 1)], (txt "-1024               "));
  ((txt "%-20i"), [(JRef (VInt 1024) (txt "java.lang.Integer") 1)], (txt "1024                "));
  ((txt "%-20i"), [(JRef (VInt (-1024)) (txt "java.lang.Integer") 1)], (txt "-1024               "));
  ((txt "%-20u"), [(JRef (VInt 1024) (txt "java.lang.Integer") 1)], (txt "1024                "));
  ((txt "%-20u"), [(JRef (VInt (-1024)) (txt "java.lang.Integer") 1)], (txt "4294966272          "));
  ((txt "%-20o"), [(JRef (VInt 511) (txt "java.lang.Integer") 1)], (txt "777                 "));
  ((txt "%-20o"), [(JRef (VInt (-511)) (txt "java.lang.Integer") 1)], (txt "37777777001         "));
  ((txt "%-20x"), [(JRef (VInt 305441741) (txt "java.lang.Integer") 1)], (txt "1234abcd            "));
  ((txt "%-20x"), [(JRef (VInt (-305441741)) (txt "java.lang.Integer") 1)], (txt "edcb5433            "));
  ((txt "%-20X"), [(JRef (VInt 305441741) (txt "java.lang.Integer") 1)], (txt "1234ABCD            "));
  ((txt "%-20X"), [(JRef (VInt (-305441741)) (txt "java.lang.Integer") 1)], (txt "EDCB5433            "));
  ((txt "%-20c"), [(JRef (VChar 120) (txt "java.lang.Character") 1)], (txt "x                   "));
  ((txt "%020d"), [(JRef (VInt 1024) (txt "java.lang.Integer") 1)], (txt "00000000000000001024"));
  ((txt "%020d"), [(JRef (VInt (-1024)) (txt "java.lang.Integer") 1)], (txt "-0000000000000001024"));
  ((txt "%020i"), [(JRef (VInt 1024) (txt "java.lang.Integer") 1)], (txt "00000000000000001024"));
  ((txt "%020i"), [(JRef (VInt (-1024)) (txt "java.lang.Integer") 1)], (txt "-0000000000000001024"));
  ((txt "%020u"), [(JRef (VInt 1024) (txt "java.lang.Integer") 1)], (txt "00000000000000001024"));
  ((txt "%020u"), [(JRef (VInt (-1024)) (txt "java.lang.Integer") 1)], (txt "00000000004294966272"));
  ((txt "%020o"), [(JRef (VInt 511) (txt "java.lang.Integer") 1)], (txt "00000000000000000777"));
  ((txt "%020o"), [(JRef (VInt (-511)) (txt "java.lang.Integer") 1)], (txt "00000000037777777001"));
  ((txt "%020x"), [(JRef (VInt 305441741) (txt "java.lang.Integer") 1)], (txt "0000000000001234abcd"));
  ((txt "%020x"), [(JRef (VInt (-305441741)) (txt "java.lang.Integer") 1)], (txt "000000000000edcb5433"));
  ((txt "%020X"), [(JRef (VInt 305441741) (txt "java.lang.Integer") 1)], (txt "0000000000001234ABCD"));
  ((txt "%020X"), [(JRef (VInt (-305441741)) (txt "java.lang.Integer") 1)], (txt "000000000000EDCB5433"));
  ((txt "%#20o"), [(JRef (VInt 511) (txt "java.lang.Integer") 1)], (txt "                0777"));
  ((txt "%#20o"), [(JRef (VInt (-511)) (txt "java.lang.Integer") 1)], (txt "        037777777001"));
  ((txt "%#20x"), [(JRef (VInt 305441741) (txt "java.lang.Integer") 1)], (txt "          0x1234abcd"));
  ((txt "%#20x"), [(JRef (VInt (-305441741)) (txt "java.lang.Integer") 1)], (txt "          0xedcb5433"));
  ((txt "%#20X"), [(JRef (VInt 305441741) (txt "java.lang.Integer") 1)], (txt "          0X1234ABCD"));
  ((txt "%#20X"), [(JRef (VInt (-305441741)) (txt "java.lang.Integer") 1)], (txt "          0XEDCB5433"));
  ((txt "%#020o"), [(JRef (VInt 511) (txt "java.lang.Integer") 1)], (txt "00000000000000000777"));
  ((txt "%#020o"), [(JRef (VInt (-511)) (txt "java.lang.Integer") 1)], (txt "00000000037777777001"));
  ((txt "%#020x"), [(JRef (VInt 305441741) (txt "java.lang.Integer") 1)], (txt "0x00000000001234abcd"));
  ((txt "%#020x"), [(JRef (VInt (-305441741)) (txt "java.lang.Integer") 1)], (txt "0x0000000000edcb5433"));
  ((txt "%#020X"), [(JRef (VInt 305441741) (txt "java.lang.Integer") 1)], (txt "0X00000000001234ABCD"));
  ((txt "%#020X"), [(JRef (VInt (-305441741)) (txt "java.lang.Integer") 1)], (txt "0X0000000000EDCB5433"));
  ((txt "%0-20s"), [(JRef (VStr (txt "Hallo")) (txt "java.lang.String") 1)], (txt "Hallo               "));
  ((txt "%0-20d"), [(JRef (VInt 1024) (txt "java.lang.Integer") 1)], (txt "1024                "));
  ((txt "%0-20d"), [(JRef (VInt (-1024)) (txt "java.lang.Integer") 1)], (txt "-1024               "));
  ((txt "%0-20i"), [(JRef (VInt 1024) (txt "java.lang.Integer") 1)], (txt "1024                "));
  ((txt "%0-20i"), [(JRef (VInt (-1024)) (txt "java.lang.Integer") 1)], (txt "-1024               "));
  ((txt "%0-20u"), [(JRef (VInt 1024) (txt "java.lang.Integer") 1)], (txt "1024                "));
  ((txt "%0-20u"), [(JRef (VInt (-1024)) (txt "java.lang.Integer") 1)], (txt "4294966272          "));
  ((txt "%-020o"), [(JRef (VInt 511) (txt "java.lang.Integer") 1)], (txt "777                 "));
  ((txt "%-020o"), [(JRef (VInt (-511)) (txt "java.lang.Integer") 1)], (txt "37777777001         "));
  ((txt "%-020x"), [(JRef (VInt 305441741) (txt "java.lang.Integer") 1)], (txt "1234abcd            "));
  ((txt "%-020x"), [(JRef (VInt (-305441741)) (txt "java.lang.Integer") 1)], (txt "edcb5433            "));
  ((txt "%-020X"), [(JRef (VInt 305441741) (txt "java.lang.Integer") 1)], (txt "1234ABCD            "));
  ((txt "%-020X"), [(JRef (VInt (-305441741)) (txt "java.lang.Integer") 1)], (txt "EDCB5433            "));
  ((txt "%-020c"), [(JRef (VChar 120) (txt "java.lang.Character") 1)], (txt "x                   "));
  ((txt "%*s"), [(JRef (VInt 20) (txt "java.lang.Integer") 1); (JRef (VStr (txt "Hallo")) (txt "java.lang.String") 1)], (txt "               Hallo"));
  ((txt "%*d"), [(JRef (VInt 20) (txt "java.lang.Integer") 1); (JRef (VInt 1024) (txt "java.lang.Integer") 1)], (txt "                1024"));
  ((txt "%*d"), [(JRef (VInt 20) (txt "java.lang.Integer") 1); (JRef (VInt (-1024)) (txt "java.lang.Integer") 1)], (txt "               -1024"));
  ((txt "%*i"), [(JRef (VInt 20) (txt "java.lang.Integer") 1); (JRef (VInt 1024) (txt "java.lang.Integer") 1)], (txt "                1024"));
  ((txt "%*i"), [(JRef (VInt 20) (txt "java.lang.Integer") 1); (JRef (VInt (-1024)) (txt "java.lang.Integer") 1)], (txt "               -1024"));
  ((txt "%*u"), [(JRef (VInt 20) (txt "java.lang.Integer") 1); (JRef (VInt 1024) (txt "java.lang.Integer") 1)], (txt "                1024"));
  ((txt "%*u"), [(JRef (VInt 20) (txt "java.lang.Integer") 1); (JRef (VInt (-1024)) (txt "java.lang.Integer") 1)], (txt "          4294966272"));
  ((txt "%*o"), [(JRef (VInt 20) (txt "java.lang.Integer") 1); (JRef (VInt 511) (txt "java.lang.Integer") 1)], (txt "                 777"));
  ((txt "%*o"), [(JRef (VInt 20) (txt "java.lang.Integer") 1); (JRef (VInt (-511)) (txt "java.lang.Integer") 1)], (txt "         37777777001"));
  ((txt "%*x"), [(JRef (VInt 20) (txt "java.lang.Integer") 1); (JRef (VInt 305441741) (txt "java.lang.Integer") 1)], (txt "            1234abcd"));
  ((txt "%*x"), [(JRef (VInt 20) (txt "java.lang.Integer") 1); (JRef (VInt (-305441741)) (txt "java.lang.Integer") 1)], (txt "            edcb5433"));
  ((txt "%*X"), [(JRef (VInt 20) (txt "java.lang.Integer") 1); (JRef (VInt 305441741) (txt "java.lang.Integer") 1)], (txt "            1234ABCD"));
  ((txt "%*X"), [(JRef (VInt 20) (txt "java.lang.Integer") 1); (JRef (VInt (-305441741)) (txt "java.lang.Integer") 1)], (txt "            EDCB5433"));
  ((txt "%*c"), [(JRef (VInt 20) (txt "java.lang.Integer") 1); (JRef (VChar 120) (txt "java.lang.Character") 1)], (txt "                   x"));
  ((txt "%.20s"), [(JRef (VStr (txt "Hallo heimur")) (txt "java.lang.String") 1)], (txt "Hallo heimur"));
  ((txt "%.20d"), [(JRef (VInt 1024) (txt "java.lang.Integer") 1)], (txt "00000000000000001024"));
  ((txt "%.20d"), [(JRef (VInt (-1024)) (txt "java.lang.Integer") 1)], (txt "-00000000000000001024"));
  ((txt "%.20i"), [(JRef (VInt 1024) (txt "java.lang.Integer") 1)], (txt "00000000000000001024"));
  ((txt "%.20i"), [(JRef (VInt (-1024)) (txt "java.lang.Integer") 1)], (txt "-00000000000000001024"));
  ((txt "%.20u"), [(JRef (VInt 1024) (txt "java.lang.Integer") 1)], (txt "00000000000000001024"));
  ((txt "%.20u"), [(JRef (VInt (-1024)) (txt "java.lang.Integer") 1)], (txt "00000000004294966272"));
  ((txt "%.20o"), [(JRef (VInt 511) (txt "java.lang.Integer") 1)], (txt "00000000000000000777"));
  ((txt "%.20o"), [(JRef (VInt (-511)) (txt "java.lang.Integer") 1)], (txt "00000000037777777001"));
  ((txt "%.20x"), [(JRef (VInt 305441741) (txt "java.lang.Integer") 1)], (txt "0000000000001234abcd"));
  ((txt "%.20x"), [(JRef (VInt (-305441741)) (txt "java.lang.Integer") 1)], (txt "000000000000edcb5433"));
  ((txt "%.20X"), [(JRef (VInt 305441741) (txt "java.lang.Integer") 1)], (txt "0000000000001234ABCD"));
  ((txt "%.20X"), [(JRef (VInt (-305441741)) (txt "java.lang.Integer") 1)], (txt "000000000000EDCB5433"));
  ((txt "%20.5s"), [(JRef (VStr (txt "Hallo heimur")) (txt "java.lang.String") 1)], (txt "               Hallo"));
  ((txt "%20.5d"), [(JRef (VInt 1024) (txt "java.lang.Integer") 1)], (txt "               01024"));
  ((txt "%20.5d"), [(JRef (VInt (-1024)) (txt "java.lang.Integer") 1)], (txt "              -01024"));
  ((txt "%20.5i"), [(JRef (VInt 1024) (txt "java.lang.Integer") 1)], (txt "               01024"));
  ((txt "%20.5i"), [(JRef (VInt (-1024)) (txt "java.lang.Integer") 1)], (txt "              -01024"));
  ((txt "%20.5u"), [(JRef (VInt 1024) (txt "java.lang.Integer") 1)], (txt "               01024"));
  ((txt "%20.5u"), [(JRef (VInt (-1024)) (txt "java.lang.Integer") 1)], (txt "          4294966272"));
  ((txt "%20.5o"), [(JRef (VInt 511) (txt "java.lang.Integer") 1)], (txt "               00777"));
  ((txt "%20.5o"), [(JRef (VInt (-511)) (txt "java.lang.Integer") 1)], (txt "         37777777001"));
  ((txt "%20.5x"), [(JRef (VInt 305441741) (txt "java.lang.Integer") 1)], (txt "            1234abcd"));
  ((txt "%20.10x"), [(JRef (VInt (-305441741)) (txt "java.lang.Integer") 1)], (txt "          00edcb5433"));
  ((txt "%20.5X"), [(JRef (VInt 305441741) (txt "java.lang.Integer") 1)], (txt "            1234ABCD"));
  ((txt "%20.10X"), [(JRef (VInt (-305441741)) (txt "java.lang.Integer") 1)], (txt "          00EDCB5433"));
  ((txt "%020.5s"), [(JRef (VStr (txt "Hallo heimur")) (txt "java.lang.String") 1)], (txt "               Hallo"));
  ((txt "%020.5d"), [(JRef (VInt 1024) (txt "java.lang.Integer") 1)], (txt "               01024"));
  ((txt "%020.5d"), [(JRef (VInt (-1024)) (txt "java.lang.Integer") 1)], (txt "              -01024"));
  ((txt "%020.5i"), [(JRef (VInt 1024) (txt "java.lang.Integer") 1)], (txt "               01024"));
  ((txt "%020.5i"), [(JRef (VInt (-1024)) (txt "java.lang.Integer") 1)], (txt "              -01024"));
  ((txt "%020.5u"), [(JRef (VInt 1024) (txt "java.lang.Integer") 1)], (txt "               01024"));
  ((txt "%020.5u"), [(JRef (VInt (-1024)) (txt "java.lang.Integer") 1)], (txt "          4294966272"));
  ((txt "%020.5o"), [(JRef (VInt 511) (txt "java.lang.Integer") 1)], (txt "               00777"));
  ((txt "%020.5o"), [(JRef (VInt (-511)) (txt "java.lang.Integer") 1)], (txt "         37777777001"));
  ((txt "%020.5x"), [(JRef (VInt 305441741) (txt "java.lang.Integer") 1)], (txt "            1234abcd"));
  ((txt "%020.10x"), [(JRef (VInt (-305441741)) (txt "java.lang.Integer") 1)], (txt "          00edcb5433"));
  ((txt "%020.5X"), [(JRef (VInt 305441741) (txt "java.lang.Integer") 1)], (txt "            1234ABCD"));
  ((txt "%020.10X"), [(JRef (VInt (-305441741)) (txt "java.lang.Integer") 1)], (txt "          00EDCB5433"));
  ((txt "%.0s"), [(JRef (VStr (txt "Hallo heimur")) (txt "java.lang.String") 1)], (txt ""));
  ((txt "%20.0s"), [(JRef (VStr (txt "Hallo heimur")) (txt "java.lang.String") 1)], (txt "                    "));
  ((txt "%.s"), [(JRef (VStr (txt "Hallo heimur")) (txt "java.lang.String") 1)], (txt ""));
  ((txt "%20.s"), [(JRef (VStr (txt "Hallo heimur")) (txt "java.lang.String") 1)], (txt "                    "));
  ((txt "%20.0d"), [(JRef (VInt 1024) (txt "java.lang.Integer") 1)], (txt "                1024"));
  ((txt "%20.d"), [(JRef (VInt (-1024)) (txt "java.lang.Integer") 1)], (txt "               -1024"));
  ((txt "%20.d"), [(JRef (VInt 0) (txt "java.lang.Integer") 1)], (txt "                    "));
  ((txt "%20.0i"), [(JRef (VInt 1024) (txt "java.lang.Integer") 1)], (txt "                1024"));
  ((txt "%20.i"), [(JRef (VInt (-1024)) (txt "java.lang.Integer") 1)], (txt "               -1024"));
  ((txt "%20.i"), [(JRef (VInt 0) (txt "java.lang.Integer") 1)], (txt "                    "));
  ((txt "%20.u"), [(JRef (VInt 1024) (txt "java.lang.Integer") 1)], (txt "                1024"));
  ((txt "%20.0u"), [(JRef (VInt (-1024)) (txt "java.lang.Integer") 1)], (txt "          4294966272"));
  ((txt "%20.u"), [(JRef (VInt 0) (txt "java.lang.Integer") 1)], (txt "                    "));
  ((txt "%20.o"), [(JRef (VInt 511) (txt "java.lang.Integer") 1)], (txt "                 777"));
  ((txt "%20.0o"), [(JRef (VInt (-511)) (txt "java.lang.Integer") 1)], (txt "         37777777001"));
  ((txt "%20.o"), [(JRef (VInt 0) (txt "java.lang.Integer") 1)], (txt "                    "));
  ((txt "%20.x"), [(JRef (VInt 305441741) (txt "java.lang.Integer") 1)], (txt "            1234abcd"));
  ((txt "%20.0x"), [(JRef (VInt (-305441741)) (txt "java.lang.Integer") 1)], (txt "            edcb5433"));
  ((txt "%20.x"), [(JRef (VInt 0) (txt "java.lang.Integer") 1)], (txt "                    "));
  ((txt "%20.X"), [(JRef (VInt 305441741) (txt "java.lang.Integer") 1)], (txt "            1234ABCD"));
  ((txt "%20.0X"), [(JRef (VInt (-305441741)) (txt "java.lang.Integer") 1)], (txt "            EDCB5433"));
  ((txt "%20.X"), [(JRef (VInt 0) (txt "java.lang.Integer") 1)], (txt "                    "))].
Example libc_pass : filter (fun v => negb (passes v)) libc = [].
Proof. vm_compute. reflexivity. Qed.

(** NpmCasesTest.java *)
Definition npm : list vector := [
  ((txt "% d"), [(JRef (VInt 42) (txt "java.lang.Integer") 1)], (txt " 42"));
  ((txt "%+d"), [(JRef (VInt 42) (txt "java.lang.Integer") 1)], (txt "+42"));
  ((txt "% 5d"), [(JRef (VInt 42) (txt "java.lang.Integer") 1)], (txt "   42"));
  ((txt "% 5d"), [(JRef (VInt (-42)) (txt "java.lang.Integer") 1)], (txt "  -42"));
  ((txt "% 15d"), [(JRef (VInt 42) (txt "java.lang.Integer") 1)], (txt "             42"));
  ((txt "% 15d"), [(JRef (VInt (-42)) (txt "java.lang.Integer") 1)], (txt "            -42"));
  ((txt "%+d"), [(JRef (VInt 42) (txt "java.lang.Integer") 1)], (txt "+42"));
  ((txt "%+d"), [(JRef (VInt (-42)) (txt "java.lang.Integer") 1)], (txt "-42"));
  ((txt "%+5d"), [(JRef (VInt 42) (txt "java.lang.Integer") 1)], (txt "  +42"));
  ((txt "%+5d"), [(JRef (VInt (-42)) (txt "java.lang.Integer") 1)], (txt "  -42"));
  ((txt "%+15d"), [(JRef (VInt 42) (txt "java.lang.Integer") 1)], (txt "            +42"));
  ((txt "%+15d"), [(JRef (VInt (-42)) (txt "java.lang.Integer") 1)], (txt "            -42"));
  ((txt "%0d"), [(JRef (VInt 42) (txt "java.lang.Integer") 1)], (txt "42"));
  ((txt "%0d"), [(JRef (VInt (-42)) (txt "java.lang.Integer") 1)], (txt "-42"));
  ((txt "%05d"), [(JRef (VInt 42) (txt "java.lang.Integer") 1)], (txt "00042"));
  ((txt "%05d"), [(JRef (VInt (-42)) (txt "java.lang.Integer") 1)], (txt "-0042"));
  ((txt "%015d"), [(JRef (VInt 42) (txt "java.lang.Integer") 1)], (txt "000000000000042"));
  ((txt "%015d"), [(JRef (VInt (-42)) (txt "java.lang.Integer") 1)], (txt "-00000000000042"));
  ((txt "%-d"), [(JRef (VInt 42) (txt "java.lang.Integer") 1)], (txt "42"));
  ((txt "%-d"), [(JRef (VInt (-42)) (txt "java.lang.Integer") 1)], (txt "-42"));
  ((txt "%-5d"), [(JRef (VInt 42) (txt "java.lang.Integer") 1)], (txt "42   "));
  ((txt "%-5d"), [(JRef (VInt (-42)) (txt "java.lang.Integer") 1)], (txt "-42  "));
  ((txt "%-15d"), [(JRef (VInt 42) (txt "java.lang.Integer") 1)], (txt "42             "));
  ((txt "%-15d"), [(JRef (VInt (-42)) (txt "java.lang.Integer") 1)], (txt "-42            "));
  ((txt "%-0d"), [(JRef (VInt 42) (txt "java.lang.Integer") 1)], (txt "42"));
  ((txt "%-0d"), [(JRef (VInt (-42)) (txt "java.lang.Integer") 1)], (txt "-42"));
  ((txt "%-05d"), [(JRef (VInt 42) (txt "java.lang.Integer") 1)], (txt "42   "));
  ((txt "%-05d"), [(JRef (VInt (-42)) (txt "java.lang.Integer") 1)], (txt "-42  "));
  ((txt "%-015d"), [(JRef (VInt 42) (txt "java.lang.Integer") 1)], (txt "42             "));
  ((txt "%-015d"), [(JRef (VInt (-42)) (txt "java.lang.Integer") 1)], (txt "-42            "));
  ((txt "%0-d"), [(JRef (VInt 42) (txt "java.lang.Integer") 1)], (txt "42"));
  ((txt "%0-d"), [(JRef (VInt (-42)) (txt "java.lang.Integer") 1)], (txt "-42"));
  ((txt "%0-5d"), [(JRef (VInt 42) (txt "java.lang.Integer") 1)], (txt "42   "));
  ((txt "%0-5d"), [(JRef (VInt (-42)) (txt "java.lang.Integer") 1)], (txt "-42  "));
  ((txt "%0-15d"), [(JRef (VInt 42) (txt "java.lang.Integer") 1)], (txt "42             "));
  ((txt "%0-15d"), [(JRef (VInt (-42)) (txt "java.lang.Integer") 1)], (txt "-42            "));
  ((txt "%d"), [(JRef (VDouble 4631233780019998858) (txt "java.lang.Double") 1)], (txt "42"));
  ((txt "%.2d"), [(JRef (VDouble 4631233780019998858) (txt "java.lang.Double") 1)], (txt "42"));
  ((txt "%.2i"), [(JRef (VDouble 4631233780019998858) (txt "java.lang.Double") 1)], (txt "42"));
  ((txt "%.2f"), [(JRef (VDouble 4631233780019998858) (txt "java.lang.Double") 1)], (txt "42.90"));
  ((txt "%.2F"), [(JRef (VDouble 4631233780019998858) (txt "java.lang.Double") 1)], (txt "42.90"));
  ((txt "%.10f"), [(JRef (VDouble 4631233780019998858) (txt "java.lang.Double") 1)], (txt "42.8952000000"));
  ((txt "%1.2f"), [(JRef (VDouble 4631233780019998858) (txt "java.lang.Double") 1)], (txt "42.90"));
  ((txt "%6.2f"), [(JRef (VDouble 4631233780019998858) (txt "java.lang.Double") 1)], (txt " 42.90"));
  ((txt "%06.2f"), [(JRef (VDouble 4631233780019998858) (txt "java.lang.Double") 1)], (txt "042.90"));
  ((txt "%+6.2f"), [(JRef (VDouble 4631233780019998858) (txt "java.lang.Double") 1)], (txt "+42.90"));
  ((txt "%5.10f"), [(JRef (VDouble 4631233780019998858) (txt "java.lang.Double") 1)], (txt "42.8952000000"));
  ((txt "%*s"), [(JRef (VInt 4) (txt "java.lang.Integer") 1); (JRef (VStr (txt "foo")) (txt "java.lang.String") 1)], (txt " foo"));
  ((txt "%*.*f"), [(JRef (VInt 10) (txt "java.lang.Integer") 1); (JRef (VInt 2) (txt "java.lang.Integer") 1); (JRef (VDouble 4614256656543962353) (txt "java.lang.Double") 1)], (txt "      3.14"));
  ((txt "%0*.*f"), [(JRef (VInt 10) (txt "java.lang.Integer") 1); (JRef (VInt 2) (txt "java.lang.Integer") 1); (JRef (VDouble 4614256656543962353) (txt "java.lang.Double") 1)], (txt "0000003.14"));
  ((txt "%-*.*f"), [(JRef (VInt 10) (txt "java.lang.Integer") 1); (JRef (VInt 2) (txt "java.lang.Integer") 1); (JRef (VDouble 4614256656543962353) (txt "java.lang.Double") 1)], (txt "3.14      "));
  ((txt "+%s+"), [(JRef (VStr (txt "hello")) (txt "java.lang.String") 1)], (txt "+hello+"));
  ((txt "+%d+"), [(JRef (VInt 10) (txt "java.lang.Integer") 1)], (txt "+10+"));
  ((txt "%c"), [(JRef (VChar 97) (txt "java.lang.Character") 1)], (txt "a"));
  ((txt "%c"), [(JRef (VInt 34) (txt "java.lang.Integer") 1)], (txt """"));
  ((txt "%c"), [(JRef (VInt 36) (txt "java.lang.Integer") 1)], (txt "$"));
  ((txt "%d"), [(JRef (VInt 10) (txt "java.lang.Integer") 1)], (txt "10"))].
Example npm_pass : filter (fun v => negb (passes v)) npm = [].
Proof. vm_compute. reflexivity. Qed.

(** MsvcrtCasesTest.java *)
Definition msvcrt : list vector := [
  ((txt "%+#23.15e"), [(JRef (VDouble 4739905646315438080) (txt "java.lang.Double") 1)], (txt " +7.894561230000000e+08"));
  ((txt "%-#23.15e"), [(JRef (VDouble 4739905646315438080) (txt "java.lang.Double") 1)], (txt "7.894561230000000e+08  "));
  ((txt "%#23.15e"), [(JRef (VDouble 4739905646315438080) (txt "java.lang.Double") 1)], (txt "  7.894561230000000e+08"));
  ((txt "%#1.1g"), [(JRef (VDouble 4739905646315438080) (txt "java.lang.Double") 1)], (txt "8e+08"));
  ((txt "% d"), [(JRef (VInt 1) (txt "java.lang.Integer") 1)], (txt " 1"));
  ((txt "%+d"), [(JRef (VInt 1) (txt "java.lang.Integer") 1)], (txt "+1"));
  ((txt "% +d"), [(JRef (VInt 1) (txt "java.lang.Integer") 1)], (txt "+1"));
  ((txt "%S"), [(JRef (VStr (txt "wide")) (txt "java.lang.String") 1)], (txt "WIDE"));
  ((txt "%#012x"), [(JRef (VInt 1) (txt "java.lang.Integer") 1)], (txt "0x0000000001"));
  ((txt "%#04.8x"), [(JRef (VInt 1) (txt "java.lang.Integer") 1)], (txt "0x00000001"));
  ((txt "%#-08.2x"), [(JRef (VInt 1) (txt "java.lang.Integer") 1)], (txt "0x01    "));
  ((txt "%#08o"), [(JRef (VInt 1) (txt "java.lang.Integer") 1)], (txt "00000001"));
  ((txt "%.1s"), [(JRef (VStr (txt "foo")) (txt "java.lang.String") 1)], (txt "f"));
  ((txt "%.*s"), [(JRef (VInt 1) (txt "java.lang.Integer") 1); (JRef (VStr (txt "foo")) (txt "java.lang.String") 1)], (txt "f"));
  ((txt "%3c"), [(JRef (VChar 97) (txt "java.lang.Character") 1)], (txt "  a"));
  ((txt "%%0"), [(JRef (VChar 97) (txt "java.lang.Character") 1)], (txt "%0"));
  ((txt "%%0%n%s"), [(JRef (VStr (txt "foo")) (txt "java.lang.String") 1); (JRef (VStr (txt "bar")) (txt "java.lang.String") 1)], (txt "%0bar"))].
Example msvcrt_pass : filter (fun v => negb (passes v)) msvcrt = [].
Proof. vm_compute. reflexivity. Qed.

(** BigDecimalCasesTest.java *)
Definition decimal : list vector := [
  ((txt "%d"), [(JRef (VDec (mkBD 428952 4)) (txt "java.math.BigDecimal") 1)], (txt "42"));
  ((txt "%.2d"), [(JRef (VDec (mkBD 428952 4)) (txt "java.math.BigDecimal") 1)], (txt "42"));
  ((txt "%.2i"), [(JRef (VDec (mkBD 428952 4)) (txt "java.math.BigDecimal") 1)], (txt "42"));
  ((txt "%.2f"), [(JRef (VDec (mkBD 428952 4)) (txt "java.math.BigDecimal") 1)], (txt "42.90"));
  ((txt "%.2F"), [(JRef (VDec (mkBD 428952 4)) (txt "java.math.BigDecimal") 1)], (txt "42.90"));
  ((txt "%.10f"), [(JRef (VDec (mkBD 428952 4)) (txt "java.math.BigDecimal") 1)], (txt "42.8952000000"));
  ((txt "%1.2f"), [(JRef (VDec (mkBD 428952 4)) (txt "java.math.BigDecimal") 1)], (txt "42.90"));
  ((txt "%6.2f"), [(JRef (VDec (mkBD 428952 4)) (txt "java.math.BigDecimal") 1)], (txt " 42.90"));
  ((txt "%06.2f"), [(JRef (VDec (mkBD 428952 4)) (txt "java.math.BigDecimal") 1)], (txt "042.90"));
  ((txt "%+6.2f"), [(JRef (VDec (mkBD 428952 4)) (txt "java.math.BigDecimal") 1)], (txt "+42.90"));
  ((txt "%5.10f"), [(JRef (VDec (mkBD 428952 4)) (txt "java.math.BigDecimal") 1)], (txt "42.8952000000"));
  ((txt "%+#23.15e"), [(JRef (VDec (mkBD 789456123 0)) (txt "java.math.BigDecimal") 1)], (txt " +7.894561230000000e+08"));
  ((txt "%-#23.15e"), [(JRef (VDec (mkBD 789456123 0)) (txt "java.math.BigDecimal") 1)], (txt "7.894561230000000e+08  "));
  ((txt "%#23.15e"), [(JRef (VDec (mkBD 789456123 0)) (txt "java.math.BigDecimal") 1)], (txt "  7.894561230000000e+08"));
  ((txt "%#1.1g"), [(JRef (VDec (mkBD 789456123 0)) (txt "java.math.BigDecimal") 1)], (txt "8e+08"))].
Example decimal_pass : filter (fun v => negb (passes v)) decimal = [].
Proof. vm_compute. reflexivity. Qed.

(** GhcCasesTest.java testPrimitive, with printf-tests.txt *)
Definition ghc_primitive : list vector := [
  ((txt "%.*f"), [(JRef (VInt 2) (txt "java.lang.Integer") 1); (JRef (VDouble 4599676419361018586) (txt "java.lang.Double") 1)], (txt "0.33"));
  ((txt "%.3s"), [(JRef (VStr (txt "foobar")) (txt "java.lang.String") 1)], (txt "foo"));
  ((txt "%10.5d"), [(JRef (VInt 4) (txt "java.lang.Integer") 1)], (txt "     00004"));
  ((txt "% d"), [(JRef (VInt 42) (txt "java.lang.Integer") 1)], (txt " 42"));
  ((txt "% d"), [(JRef (VInt (-42)) (txt "java.lang.Integer") 1)], (txt "-42"));
  ((txt "% 5d"), [(JRef (VInt 42) (txt "java.lang.Integer") 1)], (txt "   42"));
  ((txt "% 5d"), [(JRef (VInt (-42)) (txt "java.lang.Integer") 1)], (txt "  -42"));
  ((txt "% 15d"), [(JRef (VInt 42) (txt "java.lang.Integer") 1)], (txt "             42"));
  ((txt "% 15d"), [(JRef (VInt (-42)) (txt "java.lang.Integer") 1)], (txt "            -42"));
  ((txt "%+d"), [(JRef (VInt 42) (txt "java.lang.Integer") 1)], (txt "+42"));
  ((txt "%+d"), [(JRef (VInt (-42)) (txt "java.lang.Integer") 1)], (txt "-42"));
  ((txt "%+5d"), [(JRef (VInt 42) (txt "java.lang.Integer") 1)], (txt "  +42"));
  ((txt "%+5d"), [(JRef (VInt (-42)) (txt "java.lang.Integer") 1)], (txt "  -42"));
  ((txt "%+15d"), [(JRef (VInt 42) (txt "java.lang.Integer") 1)], (txt "            +42"));
  ((txt "%+15d"), [(JRef (VInt (-42)) (txt "java.lang.Integer") 1)], (txt "            -42"));
  ((txt "%0d"), [(JRef (VInt 42) (txt "java.lang.Integer") 1)], (txt "42"));
  ((txt "%0d"), [(JRef (VInt (-42)) (txt "java.lang.Integer") 1)], (txt "-42"));
  ((txt "%05d"), [(JRef (VInt 42) (txt "java.lang.Integer") 1)], (txt "00042"));
  ((txt "%05d"), [(JRef (VInt (-42)) (txt "java.lang.Integer") 1)], (txt "-0042"));
  ((txt "%015d"), [(JRef (VInt 42) (txt "java.lang.Integer") 1)], (txt "000000000000042"));
  ((txt "%015d"), [(JRef (VInt (-42)) (txt "java.lang.Integer") 1)], (txt "-00000000000042"));
  ((txt "%-d"), [(JRef (VInt 42) (txt "java.lang.Integer") 1)], (txt "42"));
  ((txt "%-d"), [(JRef (VInt (-42)) (txt "java.lang.Integer") 1)], (txt "-42"));
  ((txt "%-5d"), [(JRef (VInt 42) (txt "java.lang.Integer") 1)], (txt "42   "));
  ((txt "%-5d"), [(JRef (VInt (-42)) (txt "java.lang.Integer") 1)], (txt "-42  "));
  ((txt "%-15d"), [(JRef (VInt 42) (txt "java.lang.Integer") 1)], (txt "42             "));
  ((txt "%-15d"), [(JRef (VInt (-42)) (txt "java.lang.Integer") 1)], (txt "-42            "));
  ((txt "%-0d"), [(JRef (VInt 42) (txt "java.lang.Integer") 1)], (txt "42"));
  ((txt "%-0d"), [(JRef (VInt (-42)) (txt "java.lang.Integer") 1)], (txt "-42"));
  ((txt "%-05d"), [(JRef (VInt 42) (txt "java.lang.Integer") 1)], (txt "42   "));
  ((txt "%-05d"), [(JRef (VInt (-42)) (txt "java.lang.Integer") 1)], (txt "-42  "));
  ((txt "%-015d"), [(JRef (VInt 42) (txt "java.lang.Integer") 1)], (txt "42             "));
  ((txt "%-015d"), [(JRef (VInt (-42)) (txt "java.lang.Integer") 1)], (txt "-42            "));
  ((txt "%0-d"), [(JRef (VInt 42) (txt "java.lang.Integer") 1)], (txt "42"));
  ((txt "%0-d"), [(JRef (VInt (-42)) (txt "java.lang.Integer") 1)], (txt "-42"));
  ((txt "%0-5d"), [(JRef (VInt 42) (txt "java.lang.Integer") 1)], (txt "42   "));
  ((txt "%0-5d"), [(JRef (VInt (-42)) (txt "java.lang.Integer") 1)], (txt "-42  "));
  ((txt "%0-15d"), [(JRef (VInt 42) (txt "java.lang.Integer") 1)], (txt "42             "));
  ((txt "%0-15d"), [(JRef (VInt (-42)) (txt "java.lang.Integer") 1)], (txt "-42            "));
  ((txt "%.2f"), [(JRef (VDouble 4631233780019998858) (txt "java.lang.Double") 1)], (txt "42.90"));
  ((txt "%.2F"), [(JRef (VDouble 4631233780019998858) (txt "java.lang.Double") 1)], (txt "42.90"));
  ((txt "%.10f"), [(JRef (VDouble 4631233780019998858) (txt "java.lang.Double") 1)], (txt "42.8952000000"));
  ((txt "%1.2f"), [(JRef (VDouble 4631233780019998858) (txt "java.lang.Double") 1)], (txt "42.90"));
  ((txt "%6.2f"), [(JRef (VDouble 4631233780019998858) (txt "java.lang.Double") 1)], (txt " 42.90"));
  ((txt "%+6.2f"), [(JRef (VDouble 4631233780019998858) (txt "java.lang.Double") 1)], (txt "+42.90"));
  ((txt "%5.10f"), [(JRef (VDouble 4631233780019998858) (txt "java.lang.Double") 1)], (txt "42.8952000000"));
  ((txt "%*s"), [(JRef (VInt 4) (txt "java.lang.Integer") 1); (JRef (VStr (txt "foo")) (txt "java.lang.String") 1)], (txt " foo"));
  ((txt "%*.*f"), [(JRef (VInt 10) (txt "java.lang.Integer") 1); (JRef (VInt 2) (txt "java.lang.Integer") 1); (JRef (VDouble 4614256656543962353) (txt "java.lang.Double") 1)], (txt "      3.14"));
  ((txt "%-*.*f"), [(JRef (VInt 10) (txt "java.lang.Integer") 1); (JRef (VInt 2) (txt "java.lang.Integer") 1); (JRef (VDouble 4614256656543962353) (txt "java.lang.Double") 1)], (txt "3.14      "));
  ((txt "+%s+"), [(JRef (VStr (txt "hello")) (txt "java.lang.String") 1)], (txt "+hello+"));
  ((txt "+%d+"), [(JRef (VInt 10) (txt "java.lang.Integer") 1)], (txt "+10+"));
  ((txt "%c"), [(JRef (VChar 97) (txt "java.lang.Character") 1)], (txt "a"));
  ((txt "%c"), [(JRef (VInt 32) (txt "java.lang.Integer") 1)], (txt " "));
  ((txt "%c"), [(JRef (VInt 36) (txt "java.lang.Integer") 1)], (txt "$"));
  ((txt "%d"), [(JRef (VInt 10) (txt "java.lang.Integer") 1)], (txt "10"));
  ((txt "%+8d"), [(JRef (VLong 100) (txt "java.lang.Long") 1)], (txt "    +100"));
  ((txt "%+.8d"), [(JRef (VLong 100) (txt "java.lang.Long") 1)], (txt "+00000100"));
  ((txt "%+10.8d"), [(JRef (VLong 100) (txt "java.lang.Long") 1)], (txt " +00000100"));
  ((txt "%-1.5d"), [(JRef (VLong (-100)) (txt "java.lang.Long") 1)], (txt "-00100"));
  ((txt "%5d"), [(JRef (VLong 100) (txt "java.lang.Long") 1)], (txt "  100"));
  ((txt "%5d"), [(JRef (VLong (-100)) (txt "java.lang.Long") 1)], (txt " -100"));
  ((txt "%-5d"), [(JRef (VLong 100) (txt "java.lang.Long") 1)], (txt "100  "));
  ((txt "%-5d"), [(JRef (VLong (-100)) (txt "java.lang.Long") 1)], (txt "-100 "));
  ((txt "%-.5d"), [(JRef (VLong 100) (txt "java.lang.Long") 1)], (txt "00100"));
  ((txt "%-.5d"), [(JRef (VLong (-100)) (txt "java.lang.Long") 1)], (txt "-00100"));
  ((txt "%-8.5d"), [(JRef (VLong 100) (txt "java.lang.Long") 1)], (txt "00100   "));
  ((txt "%-8.5d"), [(JRef (VLong (-100)) (txt "java.lang.Long") 1)], (txt "-00100  "));
  ((txt "%05d"), [(JRef (VLong 100) (txt "java.lang.Long") 1)], (txt "00100"));
  ((txt "%05d"), [(JRef (VLong (-100)) (txt "java.lang.Long") 1)], (txt "-0100"));
  ((txt "% d"), [(JRef (VLong 100) (txt "java.lang.Long") 1)], (txt " 100"));
  ((txt "% d"), [(JRef (VLong (-100)) (txt "java.lang.Long") 1)], (txt "-100"));
  ((txt "% 5d"), [(JRef (VLong 100) (txt "java.lang.Long") 1)], (txt "  100"));
  ((txt "% 5d"), [(JRef (VLong (-100)) (txt "java.lang.Long") 1)], (txt " -100"));
  ((txt "% .5d"), [(JRef (VLong 100) (txt "java.lang.Long") 1)], (txt " 00100"));
  ((txt "% .5d"), [(JRef (VLong (-100)) (txt "java.lang.Long") 1)], (txt "-00100"));
  ((txt "% 8.5d"), [(JRef (VLong 100) (txt "java.lang.Long") 1)], (txt "   00100"));
  ((txt "% 8.5d"), [(JRef (VLong (-100)) (txt "java.lang.Long") 1)], (txt "  -00100"));
  ((txt "%.0d"), [(JRef (VLong 0) (txt "java.lang.Long") 1)], (txt ""));
  ((txt "%#+21.18x"), [(JRef (VLong (-100)) (txt "java.lang.Long") 1)], (txt " 0x00ffffffffffffff9c"));
  ((txt "%#.25o"), [(JRef (VLong (-100)) (txt "java.lang.Long") 1)], (txt "0001777777777777777777634"));
  ((txt "%#+24.20o"), [(JRef (VLong (-100)) (txt "java.lang.Long") 1)], (txt " 01777777777777777777634"));
  ((txt "%#+18.21X"), [(JRef (VLong (-100)) (txt "java.lang.Long") 1)], (txt "0X00000FFFFFFFFFFFFFF9C"));
  ((txt "%#+20.24o"), [(JRef (VLong (-100)) (txt "java.lang.Long") 1)], (txt "001777777777777777777634"));
  ((txt "%#+25.22u"), [(JRef (VLong (-1)) (txt "java.lang.Long") 1)], (txt "   0018446744073709551615"));
  ((txt "%#+25.22u"), [(JRef (VLong (-1)) (txt "java.lang.Long") 1)], (txt "   0018446744073709551615"));
  ((txt "%#+30.25u"), [(JRef (VLong (-1)) (txt "java.lang.Long") 1)], (txt "     0000018446744073709551615"));
  ((txt "%+#25.22d"), [(JRef (VLong (-1)) (txt "java.lang.Long") 1)], (txt "  -0000000000000000000001"));
  ((txt "%#-8.5o"), [(JRef (VLong 100) (txt "java.lang.Long") 1)], (txt "00144   "));
  ((txt "%#-+ 08.5d"), [(JRef (VLong 100) (txt "java.lang.Long") 1)], (txt "+00100  "));
  ((txt "%#-+ 08.5d"), [(JRef (VLong 100) (txt "java.lang.Long") 1)], (txt "+00100  "));
  ((txt "%.40d"), [(JRef (VLong 1) (txt "java.lang.Long") 1)], (txt "0000000000000000000000000000000000000001"));
  ((txt "% .40d"), [(JRef (VLong 1) (txt "java.lang.Long") 1)], (txt " 0000000000000000000000000000000000000001"));
  ((txt "% .40d"), [(JRef (VInt 1) (txt "java.lang.Integer") 1)], (txt " 0000000000000000000000000000000000000001"));
  ((txt "% d"), [(JRef (VInt 1) (txt "java.lang.Integer") 1)], (txt " 1"));
  ((txt "%+ d"), [(JRef (VInt 1) (txt "java.lang.Integer") 1)], (txt "+1"));
  ((txt "%#012x"), [(JRef (VInt 1) (txt "java.lang.Integer") 1)], (txt "0x0000000001"));
  ((txt "%#04.8x"), [(JRef (VInt 1) (txt "java.lang.Integer") 1)], (txt "0x00000001"));
  ((txt "%#-08.2x"), [(JRef (VInt 1) (txt "java.lang.Integer") 1)], (txt "0x01    "));
  ((txt "%#08o"), [(JRef (VInt 1) (txt "java.lang.Integer") 1)], (txt "00000001"));
  ((txt "%.1s"), [(JRef (VStr (txt "foo")) (txt "java.lang.String") 1)], (txt "f"));
  ((txt "%.*s"), [(JRef (VInt 1) (txt "java.lang.Integer") 1); (JRef (VStr (txt "foo")) (txt "java.lang.String") 1)], (txt "f"));
  ((txt "%*s"), [(JRef (VInt (-5)) (txt "java.lang.Integer") 1); (JRef (VStr (txt "foo")) (txt "java.lang.String") 1)], (txt "foo  "));
  ((txt "hello"), [], (txt "hello"));
  ((txt "%3c"), [(JRef (VChar 97) (txt "java.lang.Character") 1)], (txt "  a"));
  ((txt "%3d"), [(JRef (VInt 1234) (txt "java.lang.Integer") 1)], (txt "1234"));
  ((txt "%-1d"), [(JRef (VInt 2) (txt "java.lang.Integer") 1)], (txt "2"));
  ((txt "%2.4f"), [(JRef (VDouble 4621030987654181683) (txt "java.lang.Double") 1)], (txt "8.6000"));
  ((txt "%.0f"), [(JRef (VDouble 4603579539098121011) (txt "java.lang.Double") 1)], (txt "1"));
  ((txt "%-i"), [(JRef (VInt (-1)) (txt "java.lang.Integer") 1)], (txt "-1"));
  ((txt "%-i"), [(JRef (VInt 1) (txt "java.lang.Integer") 1)], (txt "1"));
  ((txt "%+i"), [(JRef (VInt 1) (txt "java.lang.Integer") 1)], (txt "+1"));
  ((txt "%o"), [(JRef (VInt 10) (txt "java.lang.Integer") 1)], (txt "12"));
  ((txt "%s"), [(JRef (VStr (txt "%%%%")) (txt "java.lang.String") 1)], (txt "%%%%"));
  ((txt "%u"), [(JRef (VInt (-1)) (txt "java.lang.Integer") 1)], (txt "4294967295"));
  ((txt "%%0"), [], (txt "%0"));
  ((txt "%x"), [(JRef (VChar 97) (txt "java.lang.Character") 1)], (txt "61"));
  ((txt "Hallo heimur"), [], (txt "Hallo heimur"));
  ((txt "%s"), [(JRef (VStr (txt "Hallo heimur")) (txt "java.lang.String") 1)], (txt "Hallo heimur"));
  ((txt "%d"), [(JRef (VInt 1024) (txt "java.lang.Integer") 1)], (txt "1024"));
  ((txt "%d"), [(JRef (VInt (-1024)) (txt "java.lang.Integer") 1)], (txt "-1024"));
  ((txt "%i"), [(JRef (VInt 1024) (txt "java.lang.Integer") 1)], (txt "1024"));
  ((txt "%i"), [(JRef (VInt (-1024)) (txt "java.lang.Integer") 1)], (txt "-1024"));
  ((txt "%u"), [(JRef (VInt 1024) (txt "java.lang.Integer") 1)], (txt "1024"));
  ((txt "%u"), [(JRef (VLong 4294966272) (txt "java.lang.Long") 1)], (txt "4294966272"));
  ((txt "%o"), [(JRef (VInt 511) (txt "java.lang.Integer") 1)], (txt "777"));
  ((txt "%o"), [(JRef (VLong 4294966785) (txt "java.lang.Long") 1)], (txt "37777777001"));
  ((txt "%x"), [(JRef (VInt 305441741) (txt "java.lang.Integer") 1)], (txt "1234abcd"));
  ((txt "%x"), [(JRef (VLong 3989525555) (txt "java.lang.Long") 1)], (txt "edcb5433"));
  ((txt "%X"), [(JRef (VInt 305441741) (txt "java.lang.Integer") 1)], (txt "1234ABCD"));
  ((txt "%X"), [(JRef (VLong 3989525555) (txt "java.lang.Long") 1)], (txt "EDCB5433"));
  ((txt "%c"), [(JRef (VChar 120) (txt "java.lang.Character") 1)], (txt "x"));
  ((txt "%%"), [], (txt "%"));
  ((txt "%+s"), [(JRef (VStr (txt "Hallo heimur")) (txt "java.lang.String") 1)], (txt "Hallo heimur"));
  ((txt "%+d"), [(JRef (VInt 1024) (txt "java.lang.Integer") 1)], (txt "+1024"));
  ((txt "%+d"), [(JRef (VInt (-1024)) (txt "java.lang.Integer") 1)], (txt "-1024"));
  ((txt "%+i"), [(JRef (VInt 1024) (txt "java.lang.Integer") 1)], (txt "+1024"));
  ((txt "%+i"), [(JRef (VInt (-1024)) (txt "java.lang.Integer") 1)], (txt "-1024"));
  ((txt "%+u"), [(JRef (VInt 1024) (txt "java.lang.Integer") 1)], (txt "1024"));
  ((txt "%+u"), [(JRef (VLong 4294966272) (txt "java.lang.Long") 1)], (txt "4294966272"));
  ((txt "%+o"), [(JRef (VInt 511) (txt "java.lang.Integer") 1)], (txt "777"));
  ((txt "%+o"), [(JRef (VLong 4294966785) (txt "java.lang.Long") 1)], (txt "37777777001"));
  ((txt "%+x"), [(JRef (VInt 305441741) (txt "java.lang.Integer") 1)], (txt "1234abcd"));
  ((txt "%+x"), [(JRef (VLong 3989525555) (txt "java.lang.Long") 1)], (txt "edcb5433"));
  ((txt "%+X"), [(JRef (VInt 305441741) (txt "java.lang.Integer") 1)], (txt "1234ABCD"));
  ((txt "%+X"), [(JRef (VLong 3989525555) (txt "java.lang.Long") 1)], (txt "EDCB5433"));
  ((txt "%+c"), [(JRef (VChar 120) (txt "java.lang.Character") 1)], (txt "x"));
  ((txt "% s"), [(JRef (VStr (txt "Hallo heimur")) (txt "java.lang.String") 1)], (txt "Hallo heimur"));
  ((txt "% d"), [(JRef (VInt 1024) (txt "java.lang.Integer") 1)], (txt " 1024"));
  ((txt "% d"), [(JRef (VInt (-1024)) (txt "java.lang.Integer") 1)], (txt "-1024"));
  ((txt "% i"), [(JRef (VInt 1024) (txt "java.lang.Integer") 1)], (txt " 1024"));
  ((txt "% i"), [(JRef (VInt (-1024)) (txt "java.lang.Integer") 1)], (txt "-1024"));
  ((txt "% u"), [(JRef (VInt 1024) (txt "java.lang.Integer") 1)], (txt "1024"));
  ((txt "% u"), [(JRef (VLong 4294966272) (txt "java.lang.Long") 1)], (txt "4294966272"));
  ((txt "% o"), [(JRef (VInt 511) (txt "java.lang.Integer") 1)], (txt "777"));
  ((txt "% o"), [(JRef (VLong 4294966785) (txt "java.lang.Long") 1)], (txt "37777777001"));
  ((txt "% x"), [(JRef (VInt 305441741) (txt "java.lang.Integer") 1)], (txt "1234abcd"));
  ((txt "% x"), [(JRef (VLong 3989525555) (txt "java.lang.Long") 1)], (txt "edcb5433"));
  ((txt "% X"), [(JRef (VInt 305441741) (txt "java.lang.Integer") 1)], (txt "1234ABCD"));
  ((txt "% X"), [(JRef (VLong 3989525555) (txt "java.lang.Long") 1)], (txt "EDCB5433"));
  ((txt "% c"), [(JRef (VChar 120) (txt "java.lang.Character") 1)], (txt "x"));
  ((txt "%+ s"), [(JRef (VStr (txt "Hallo heimur")) (txt "java.lang.String") 1)], (txt "Hallo heimur"));
  ((txt "%+ d"), [(JRef (VInt 1024) (txt "java.lang.Integer") 1)], (txt "+1024"));
  ((txt "%+ d"), [(JRef (VInt (-1024)) (txt "java.lang.Integer") 1)], (txt "-1024"));
  ((txt "%+ i"), [(JRef (VInt 1024) (txt "java.lang.Integer") 1)], (txt "+1024"));
  ((txt "%+ i"), [(JRef (VInt (-1024)) (txt "java.lang.Integer") 1)], (txt "-1024"));
  ((txt "%+ u"), [(JRef (VInt 1024) (txt "java.lang.Integer") 1)], (txt "1024"));
  ((txt "%+ u"), [(JRef (VLong 4294966272) (txt "java.lang.Long") 1)], (txt "4294966272"));
  ((txt "%+ o"), [(JRef (VInt 511) (txt "java.lang.Integer") 1)], (txt "777"));
  ((txt "%+ o"), [(JRef (VLong 4294966785) (txt "java.lang.Long") 1)], (txt "37777777001"));
  ((txt "%+ x"), [(JRef (VInt 305441741) (txt "java.lang.Integer") 1)], (txt "1234abcd"));
  ((txt "%+ x"), [(JRef (VLong 3989525555) (txt "java.lang.Long") 1)], (txt "edcb5433"));
  ((txt "%+ X"), [(JRef (VInt 305441741) (txt "java.lang.Integer") 1)], (txt "1234ABCD"));
  ((txt "%+ X"), [(JRef (VLong 3989525555) (txt "java.lang.Long") 1)], (txt "EDCB5433"));
  ((txt "%+ c"), [(JRef (VChar 120) (txt "java.lang.Character") 1)], (txt "x"));
  ((txt "%#o"), [(JRef (VInt 511) (txt "java.lang.Integer") 1)], (txt "0777"));
  ((txt "%#o"), [(JRef (VLong 4294966785) (txt "java.lang.Long") 1)], (txt "037777777001"));
  ((txt "%#x"), [(JRef (VInt 305441741) (txt "java.lang.Integer") 1)], (txt "0x1234abcd"));
  ((txt "%#x"), [(JRef (VLong 3989525555) (txt "java.lang.Long") 1)], (txt "0xedcb5433"));
  ((txt "%#X"), [(JRef (VInt 305441741) (txt "java.lang.Integer") 1)], (txt "0X1234ABCD"));
  ((txt "%#X"), [(JRef (VLong 3989525555) (txt "java.lang.Long") 1)], (txt "0XEDCB5433"));
  ((txt "%#o"), [(JRef (VLong 0) (txt "java.lang.Long") 1)], (txt "0"));
  ((txt "%#x"), [(JRef (VLong 0) (txt "java.lang.Long") 1)], (txt "0"));
  ((txt "%#X"), [(JRef (VLong 0) (txt "java.lang.Long") 1)], (txt "0"));
  ((txt "%1s"), [(JRef (VStr (txt "Hallo heimur")) (txt "java.lang.String") 1)], (txt "Hallo heimur"));
  ((txt "%1d"), [(JRef (VInt 1024) (txt "java.lang.Integer") 1)], (txt "1024"));
  ((txt "%1d"), [(JRef (VInt (-1024)) (txt "java.lang.Integer") 1)], (txt "-1024"));
  ((txt "%1i"), [(JRef (VInt 1024) (txt "java.lang.Integer") 1)], (txt "1024"));
  ((txt "%1i"), [(JRef (VInt (-1024)) (txt "java.lang.Integer") 1)], (txt "-1024"));
  ((txt "%1u"), [(JRef (VInt 1024) (txt "java.lang.Integer") 1)], (txt "1024"));
  ((txt "%1u"), [(JRef (VLong 4294966272) (txt "java.lang.Long") 1)], (txt "4294966272"));
  ((txt "%1o"), [(JRef (VInt 511) (txt "java.lang.Integer") 1)], (txt "777"));
  ((txt "%1o"), [(JRef (VLong 4294966785) (txt "java.lang.Long") 1)], (txt "37777777001"));
  ((txt "%1x"), [(JRef (VInt 305441741) (txt "java.lang.Integer") 1)], (txt "1234abcd"));
  ((txt "%1x"), [(JRef (VLong 3989525555) (txt "java.lang.Long") 1)], (txt "edcb5433"));
  ((txt "%1X"), [(JRef (VInt 305441741) (txt "java.lang.Integer") 1)], (txt "1234ABCD"));
  ((txt "%1X"), [(JRef (VLong 3989525555) (txt "java.lang.Long") 1)], (txt "EDCB5433"));
  ((txt "%1c"), [(JRef (VChar 120) (txt "java.lang.Character") 1)], (txt "x"));
  ((txt "%20s"), [(JRef (VStr (txt "Hallo")) (txt "java.lang.String") 1)], (txt "               Hallo"));
  ((txt "%20d"), [(JRef (VInt 1024) (txt "java.lang.Integer") 1)], (txt "                1024"));
  ((txt "%20d"), [(JRef (VInt (-1024)) (txt "java.lang.Integer") 1)], (txt "               -1024"));
  ((txt "%20i"), [(JRef (VInt 1024) (txt "java.lang.Integer") 1)], (txt "                1024"));
  ((txt "%20i"), [(JRef (VInt (-1024)) (txt "java.lang.Integer") 1)], (txt "               -1024"));
  ((txt "%20u"), [(JRef (VInt 1024) (txt "java.lang.Integer") 1)], (txt "                1024"));
  ((txt "%20u"), [(JRef (VLong 4294966272) (txt "java.lang.Long") 1)], (txt "          4294966272"));
  ((txt "%20o"), [(JRef (VInt 511) (txt "java.lang.Integer") 1)], (txt "                 777"));
  ((txt "%20o"), [(JRef (VLong 4294966785) (txt "java.lang.Long") 1)], (txt "         37777777001"));
  ((txt "%20x"), [(JRef (VInt 305441741) (txt "java.lang.Integer") 1)], (txt "            1234abcd"));
  ((txt "%20x"), [(JRef (VLong 3989525555) (txt "java.lang.Long") 1)], (txt "            edcb5433"));
  ((txt "%20X"), [(JRef (VInt 305441741) (txt "java.lang.Integer") 1)], (txt "            1234ABCD"));
  ((txt "%20X"), [(JRef (VLong 3989525555) (txt "java.lang.Long") 1)], (txt "            EDCB5433"));
  ((txt "%20c"), [(JRef (VChar 120) (txt "java.lang.Character") 1)], (txt "                   x"));
  ((txt "%-20s"), [(JRef (VStr (txt "Hallo")) (txt "java.lang.String") 1)], (txt "Hallo               "));
  ((txt "%-20d"), [(JRef (VInt 1024) (txt "java.lang.Integer") 1)], (txt "1024                "));
  ((txt "%-20d"), [(JRef (VInt (-1024)) (txt "java.lang.Integer") 1)], (txt "-1024               "));
  ((txt "%-20i"), [(JRef (VInt 1024) (txt "java.lang.Integer") 1)], (txt "1024                "));
  ((txt "%-20i"), [(JRef (VInt (-1024)) (txt "java.lang.Integer") 1)], (txt "-1024               "));
  ((txt "%-20u"), [(JRef (VInt 1024) (txt "java.lang.Integer") 1)], (txt "1024                "));
  ((txt "%-20u"), [(JRef (VLong 4294966272) (txt "java.lang.Long") 1)], (txt "4294966272          "));
  ((txt "%-20o"), [(JRef (VInt 511) (txt "java.lang.Integer") 1)], (txt "777                 "));
  ((txt "%-20o"), [(JRef (VLong 4294966785) (txt "java.lang.Long") 1)], (txt "37777777001         "));
  ((txt "%-20x"), [(JRef (VInt 305441741) (txt "java.lang.Integer") 1)], (txt "1234abcd            "));
  ((txt "%-20x"), [(JRef (VLong 3989525555) (txt "java.lang.Long") 1)], (txt "edcb5433            "));
  ((txt "%-20X"), [(JRef (VInt 305441741) (txt "java.lang.Integer") 1)], (txt "1234ABCD            "));
  ((txt "%-20X"), [(JRef (VLong 3989525555) (txt "java.lang.Long") 1)], (txt "EDCB5433            "));
  ((txt "%-20c"), [(JRef (VChar 120) (txt "java.lang.Character") 1)], (txt "x                   "));
  ((txt "%020d"), [(JRef (VInt 1024) (txt "java.lang.Integer") 1)], (txt "00000000000000001024"));
  ((txt "%020d"), [(JRef (VInt (-1024)) (txt "java.lang.Integer") 1)], (txt "-0000000000000001024"));
  ((txt "%020i"), [(JRef (VInt 1024) (txt "java.lang.Integer") 1)], (txt "00000000000000001024"));
  ((txt "%020i"), [(JRef (VInt (-1024)) (txt "java.lang.Integer") 1)], (txt "-0000000000000001024"));
  ((txt "%020u"), [(JRef (VInt 1024) (txt "java.lang.Integer") 1)], (txt "00000000000000001024"));
  ((txt "%020u"), [(JRef (VLong 4294966272) (txt "java.lang.Long") 1)], (txt "00000000004294966272"));
  ((txt "%020o"), [(JRef (VInt 511) (txt "java.lang.Integer") 1)], (txt "00000000000000000777"));
  ((txt "%020o"), [(JRef (VLong 4294966785) (txt "java.lang.Long") 1)], (txt "00000000037777777001"));
  ((txt "%020x"), [(JRef (VInt 305441741) (txt "java.lang.Integer") 1)], (txt "0000000000001234abcd"));
  ((txt "%020x"), [(JRef (VLong 3989525555) (txt "java.lang.Long") 1)], (txt "000000000000edcb5433"));
  ((txt "%020X"), [(JRef (VInt 305441741) (txt "java.lang.Integer") 1)], (txt "0000000000001234ABCD"));
  ((txt "%020X"), [(JRef (VLong 3989525555) (txt "java.lang.Long") 1)], (txt "000000000000EDCB5433"));
  ((txt "%#20o"), [(JRef (VInt 511) (txt "java.lang.Integer") 1)], (txt "                0777"));
  ((txt "%#20o"), [(JRef (VLong 4294966785) (txt "java.lang.Long") 1)], (txt "        037777777001"));
  ((txt "%#20x"), [(JRef (VInt 305441741) (txt "java.lang.Integer") 1)], (txt "          0x1234abcd"));
  ((txt "%#20x"), [(JRef (VLong 3989525555) (txt "java.lang.Long") 1)], (txt "          0xedcb5433"));
  ((txt "%#20X"), [(JRef (VInt 305441741) (txt "java.lang.Integer") 1)], (txt "          0X1234ABCD"));
  ((txt "%#20X"), [(JRef (VLong 3989525555) (txt "java.lang.Long") 1)], (txt "          0XEDCB5433"));
  ((txt "%#020o"), [(JRef (VInt 511) (txt "java.lang.Integer") 1)], (txt "00000000000000000777"));
  ((txt "%#020o"), [(JRef (VLong 4294966785) (txt "java.lang.Long") 1)], (txt "00000000037777777001"));
  ((txt "%#020x"), [(JRef (VInt 305441741) (txt "java.lang.Integer") 1)], (txt "0x00000000001234abcd"));
  ((txt "%#020x"), [(JRef (VLong 3989525555) (txt "java.lang.Long") 1)], (txt "0x0000000000edcb5433"));
  ((txt "%#020X"), [(JRef (VInt 305441741) (txt "java.lang.Integer") 1)], (txt "0X00000000001234ABCD"));
  ((txt "%#020X"), [(JRef (VLong 3989525555) (txt "java.lang.Long") 1)], (txt "0X0000000000EDCB5433"));
  ((txt "%0-20s"), [(JRef (VStr (txt "Hallo")) (txt "java.lang.String") 1)], (txt "Hallo               "));
  ((txt "%0-20d"), [(JRef (VInt 1024) (txt "java.lang.Integer") 1)], (txt "1024                "));
  ((txt "%0-20d"), [(JRef (VInt (-1024)) (txt "java.lang.Integer") 1)], (txt "-1024               "));
  ((txt "%0-20i"), [(JRef (VInt 1024) (txt "java.lang.Integer") 1)], (txt "1024                "));
  ((txt "%0-20i"), [(JRef (VInt (-1024)) (txt "java.lang.Integer") 1)], (txt "-1024               "));
  ((txt "%0-20u"), [(JRef (VInt 1024) (txt "java.lang.Integer") 1)], (txt "1024                "));
  ((txt "%0-20u"), [(JRef (VLong 4294966272) (txt "java.lang.Long") 1)], (txt "4294966272          "));
  ((txt "%-020o"), [(JRef (VInt 511) (txt "java.lang.Integer") 1)], (txt "777                 "));
  ((txt "%-020o"), [(JRef (VLong 4294966785) (txt "java.lang.Long") 1)], (txt "37777777001         "));
  ((txt "%-020x"), [(JRef (VInt 305441741) (txt "java.lang.Integer") 1)], (txt "1234abcd            "));
  ((txt "%-020x"), [(JRef (VLong 3989525555) (txt "java.lang.Long") 1)], (txt "edcb5433            "));
  ((txt "%-020X"), [(JRef (VInt 305441741) (txt "java.lang.Integer") 1)], (txt "1234ABCD            "));
  ((txt "%-020X"), [(JRef (VLong 3989525555) (txt "java.lang.Long") 1)], (txt "EDCB5433            "));
  ((txt "%-020c"), [(JRef (VChar 120) (txt "java.lang.Character") 1)], (txt "x                   "));
  ((txt "%*s"), [(JRef (VInt 20) (txt "java.lang.Integer") 1); (JRef (VStr (txt "Hallo")) (txt "java.lang.String") 1)], (txt "               Hallo"));
  ((txt "%*d"), [(JRef (VInt 20) (txt "java.lang.Integer") 1); (JRef (VInt 1024) (txt "java.lang.Integer") 1)], (txt "                1024"));
  ((txt "%*d"), [(JRef (VInt 20) (txt "java.lang.Integer") 1); (JRef (VInt (-1024)) (txt "java.lang.Integer") 1)], (txt "               -1024"));
  ((txt "%*i"), [(JRef (VInt 20) (txt "java.lang.Integer") 1); (JRef (VInt 1024) (txt "java.lang.Integer") 1)], (txt "                1024"));
  ((txt "%*i"), [(JRef (VInt 20) (txt "java.lang.Integer") 1); (JRef (VInt (-1024)) (txt "java.lang.Integer") 1)], (txt "               -1024"));
  ((txt "%*u"), [(JRef (VInt 20) (txt "java.lang.Integer") 1); (JRef (VInt 1024) (txt "java.lang.Integer") 1)], (txt "                1024"));
  ((txt "%*u"), [(JRef (VInt 20) (txt "java.lang.Integer") 1); (JRef (VLong 4294966272) (txt "java.lang.Long") 1)], (txt "          4294966272"));
  ((txt "%*o"), [(JRef (VInt 20) (txt "java.lang.Integer") 1); (JRef (VInt 511) (txt "java.lang.Integer") 1)], (txt "                 777"));
  ((txt "%*o"), [(JRef (VInt 20) (txt "java.lang.Integer") 1); (JRef (VLong 4294966785) (txt "java.lang.Long") 1)], (txt "         37777777001"));
  ((txt "%*x"), [(JRef (VInt 20) (txt "java.lang.Integer") 1); (JRef (VInt 305441741) (txt "java.lang.Integer") 1)], (txt "            1234abcd"));
  ((txt "%*x"), [(JRef (VInt 20) (txt "java.lang.Integer") 1); (JRef (VLong 3989525555) (txt "java.lang.Long") 1)], (txt "            edcb5433"));
  ((txt "%*X"), [(JRef (VInt 20) (txt "java.lang.Integer") 1); (JRef (VInt 305441741) (txt "java.lang.Integer") 1)], (txt "            1234ABCD"));
  ((txt "%*X"), [(JRef (VInt 20) (txt "java.lang.Integer") 1); (JRef (VLong 3989525555) (txt "java.lang.Long") 1)], (txt "            EDCB5433"));
  ((txt "%*c"), [(JRef (VInt 20) (txt "java.lang.Integer") 1); (JRef (VChar 120) (txt "java.lang.Character") 1)], (txt "                   x"));
  ((txt "%.20s"), [(JRef (VStr (txt "Hallo heimur")) (txt "java.lang.String") 1)], (txt "Hallo heimur"));
  ((txt "%.20d"), [(JRef (VInt 1024) (txt "java.lang.Integer") 1)], (txt "00000000000000001024"));
  ((txt "%.20d"), [(JRef (VInt (-1024)) (txt "java.lang.Integer") 1)], (txt "-00000000000000001024"));
  ((txt "%.20i"), [(JRef (VInt 1024) (txt "java.lang.Integer") 1)], (txt "00000000000000001024"));
  ((txt "%.20i"), [(JRef (VInt (-1024)) (txt "java.lang.Integer") 1)], (txt "-00000000000000001024"));
  ((txt "%.20u"), [(JRef (VInt 1024) (txt "java.lang.Integer") 1)], (txt "00000000000000001024"));
  ((txt "%.20u"), [(JRef (VLong 4294966272) (txt "java.lang.Long") 1)], (txt "00000000004294966272"));
  ((txt "%.20o"), [(JRef (VInt 511) (txt "java.lang.Integer") 1)], (txt "00000000000000000777"));
  ((txt "%.20o"), [(JRef (VLong 4294966785) (txt "java.lang.Long") 1)], (txt "00000000037777777001"));
  ((txt "%.20x"), [(JRef (VInt 305441741) (txt "java.lang.Integer") 1)], (txt "0000000000001234abcd"));
  ((txt "%.20x"), [(JRef (VLong 3989525555) (txt "java.lang.Long") 1)], (txt "000000000000edcb5433"));
  ((txt "%.20X"), [(JRef (VInt 305441741) (txt "java.lang.Integer") 1)], (txt "0000000000001234ABCD"));
  ((txt "%.20X"), [(JRef (VLong 3989525555) (txt "java.lang.Long") 1)], (txt "000000000000EDCB5433"));
  ((txt "%20.5s"), [(JRef (VStr (txt "Hallo heimur")) (txt "java.lang.String") 1)], (txt "               Hallo"));
  ((txt "%20.5d"), [(JRef (VInt 1024) (txt "java.lang.Integer") 1)], (txt "               01024"));
  ((txt "%20.5d"), [(JRef (VInt (-1024)) (txt "java.lang.Integer") 1)], (txt "              -01024"));
  ((txt "%20.5i"), [(JRef (VInt 1024) (txt "java.lang.Integer") 1)], (txt "               01024"));
  ((txt "%20.5i"), [(JRef (VInt (-1024)) (txt "java.lang.Integer") 1)], (txt "              -01024"));
  ((txt "%20.5u"), [(JRef (VInt 1024) (txt "java.lang.Integer") 1)], (txt "               01024"));
  ((txt "%20.5u"), [(JRef (VLong 4294966272) (txt "java.lang.Long") 1)], (txt "          4294966272"));
  ((txt "%20.5o"), [(JRef (VInt 511) (txt "java.lang.Integer") 1)], (txt "               00777"));
  ((txt "%20.5o"), [(JRef (VLong 4294966785) (txt "java.lang.Long") 1)], (txt "         37777777001"));
  ((txt "%20.5x"), [(JRef (VInt 305441741) (txt "java.lang.Integer") 1)], (txt "            1234abcd"));
  ((txt "%20.10x"), [(JRef (VLong 3989525555) (txt "java.lang.Long") 1)], (txt "          00edcb5433"));
  ((txt "%20.5X"), [(JRef (VInt 305441741) (txt "java.lang.Integer") 1)], (txt "            1234ABCD"));
  ((txt "%20.10X"), [(JRef (VLong 3989525555) (txt "java.lang.Long") 1)], (txt "          00EDCB5433"));
  ((txt "%020.5d"), [(JRef (VInt 1024) (txt "java.lang.Integer") 1)], (txt "               01024"));
  ((txt "%020.5d"), [(JRef (VInt (-1024)) (txt "java.lang.Integer") 1)], (txt "              -01024"));
  ((txt "%020.5i"), [(JRef (VInt 1024) (txt "java.lang.Integer") 1)], (txt "               01024"));
  ((txt "%020.5i"), [(JRef (VInt (-1024)) (txt "java.lang.Integer") 1)], (txt "              -01024"));
  ((txt "%020.5u"), [(JRef (VInt 1024) (txt "java.lang.Integer") 1)], (txt "               01024"));
  ((txt "%020.5u"), [(JRef (VLong 4294966272) (txt "java.lang.Long") 1)], (txt "          4294966272"));
  ((txt "%020.5o"), [(JRef (VInt 511) (txt "java.lang.Integer") 1)], (txt "               00777"));
  ((txt "%020.5o"), [(JRef (VLong 4294966785) (txt "java.lang.Long") 1)], (txt "         37777777001"));
  ((txt "%020.5x"), [(JRef (VInt 305441741) (txt "java.lang.Integer") 1)], (txt "            1234abcd"));
  ((txt "%020.10x"), [(JRef (VLong 3989525555) (txt "java.lang.Long") 1)], (txt "          00edcb5433"));
  ((txt "%020.5X"), [(JRef (VInt 305441741) (txt "java.lang.Integer") 1)], (txt "            1234ABCD"));
  ((txt "%020.10X"), [(JRef (VLong 3989525555) (txt "java.lang.Long") 1)], (txt "          00EDCB5433"));
  ((txt "%.0s"), [(JRef (VStr (txt "Hallo heimur")) (txt "java.lang.String") 1)], (txt ""));
  ((txt "%20.0s"), [(JRef (VStr (txt "Hallo heimur")) (txt "java.lang.String") 1)], (txt "                    "));
  ((txt "%.s"), [(JRef (VStr (txt "Hallo heimur")) (txt "java.lang.String") 1)], (txt ""));
  ((txt "%20.s"), [(JRef (VStr (txt "Hallo heimur")) (txt "java.lang.String") 1)], (txt "                    "));
  ((txt "%20.0d"), [(JRef (VInt 1024) (txt "java.lang.Integer") 1)], (txt "                1024"));
  ((txt "%20.d"), [(JRef (VInt (-1024)) (txt "java.lang.Integer") 1)], (txt "               -1024"));
  ((txt "%20.d"), [(JRef (VInt 0) (txt "java.lang.Integer") 1)], (txt "                    "));
  ((txt "%20.0i"), [(JRef (VInt 1024) (txt "java.lang.Integer") 1)], (txt "                1024"));
  ((txt "%20.i"), [(JRef (VInt (-1024)) (txt "java.lang.Integer") 1)], (txt "               -1024"));
  ((txt "%20.i"), [(JRef (VInt 0) (txt "java.lang.Integer") 1)], (txt "                    "));
  ((txt "%20.u"), [(JRef (VInt 1024) (txt "java.lang.Integer") 1)], (txt "                1024"));
  ((txt "%20.0u"), [(JRef (VLong 4294966272) (txt "java.lang.Long") 1)], (txt "          4294966272"));
  ((txt "%20.u"), [(JRef (VLong 0) (txt "java.lang.Long") 1)], (txt "                    "));
  ((txt "%20.o"), [(JRef (VInt 511) (txt "java.lang.Integer") 1)], (txt "                 777"));
  ((txt "%20.0o"), [(JRef (VLong 4294966785) (txt "java.lang.Long") 1)], (txt "         37777777001"));
  ((txt "%20.o"), [(JRef (VLong 0) (txt "java.lang.Long") 1)], (txt "                    "));
  ((txt "%20.x"), [(JRef (VInt 305441741) (txt "java.lang.Integer") 1)], (txt "            1234abcd"));
  ((txt "%20.0x"), [(JRef (VLong 3989525555) (txt "java.lang.Long") 1)], (txt "            edcb5433"));
  ((txt "%20.x"), [(JRef (VLong 0) (txt "java.lang.Long") 1)], (txt "                    "));
  ((txt "%20.X"), [(JRef (VInt 305441741) (txt "java.lang.Integer") 1)], (txt "            1234ABCD"));
  ((txt "%20.0X"), [(JRef (VLong 3989525555) (txt "java.lang.Long") 1)], (txt "            EDCB5433"));
  ((txt "%20.X"), [(JRef (VLong 0) (txt "java.lang.Long") 1)], (txt "                    "));
  ((txt "% -0+*.*s"), [(JRef (VInt 20) (txt "java.lang.Integer") 1); (JRef (VInt 5) (txt "java.lang.Integer") 1); (JRef (VStr (txt "Hallo heimur")) (txt "java.lang.String") 1)], (txt "Hallo               "));
  ((txt "% -0+*.*d"), [(JRef (VInt 20) (txt "java.lang.Integer") 1); (JRef (VInt 5) (txt "java.lang.Integer") 1); (JRef (VInt 1024) (txt "java.lang.Integer") 1)], (txt "+01024              "));
  ((txt "% -0+*.*d"), [(JRef (VInt 20) (txt "java.lang.Integer") 1); (JRef (VInt 5) (txt "java.lang.Integer") 1); (JRef (VInt (-1024)) (txt "java.lang.Integer") 1)], (txt "-01024              "));
  ((txt "% -0+*.*i"), [(JRef (VInt 20) (txt "java.lang.Integer") 1); (JRef (VInt 5) (txt "java.lang.Integer") 1); (JRef (VInt 1024) (txt "java.lang.Integer") 1)], (txt "+01024              "));
  ((txt "% 0-+*.*i"), [(JRef (VInt 20) (txt "java.lang.Integer") 1); (JRef (VInt 5) (txt "java.lang.Integer") 1); (JRef (VInt (-1024)) (txt "java.lang.Integer") 1)], (txt "-01024              "));
  ((txt "% 0-+*.*u"), [(JRef (VInt 20) (txt "java.lang.Integer") 1); (JRef (VInt 5) (txt "java.lang.Integer") 1); (JRef (VInt 1024) (txt "java.lang.Integer") 1)], (txt "01024               "));
  ((txt "% 0-+*.*u"), [(JRef (VInt 20) (txt "java.lang.Integer") 1); (JRef (VInt 5) (txt "java.lang.Integer") 1); (JRef (VLong 4294966272) (txt "java.lang.Long") 1)], (txt "4294966272          "));
  ((txt "%+ -0*.*o"), [(JRef (VInt 20) (txt "java.lang.Integer") 1); (JRef (VInt 5) (txt "java.lang.Integer") 1); (JRef (VInt 511) (txt "java.lang.Integer") 1)], (txt "00777               "));
  ((txt "%+ -0*.*o"), [(JRef (VInt 20) (txt "java.lang.Integer") 1); (JRef (VInt 5) (txt "java.lang.Integer") 1); (JRef (VLong 4294966785) (txt "java.lang.Long") 1)], (txt "37777777001         "));
  ((txt "%+ -0*.*x"), [(JRef (VInt 20) (txt "java.lang.Integer") 1); (JRef (VInt 5) (txt "java.lang.Integer") 1); (JRef (VInt 305441741) (txt "java.lang.Integer") 1)], (txt "1234abcd            "));
  ((txt "%+ -0*.*x"), [(JRef (VInt 20) (txt "java.lang.Integer") 1); (JRef (VInt 10) (txt "java.lang.Integer") 1); (JRef (VLong 3989525555) (txt "java.lang.Long") 1)], (txt "00edcb5433          "));
  ((txt "% -+0*.*X"), [(JRef (VInt 20) (txt "java.lang.Integer") 1); (JRef (VInt 5) (txt "java.lang.Integer") 1); (JRef (VInt 305441741) (txt "java.lang.Integer") 1)], (txt "1234ABCD            "));
  ((txt "% -+0*.*X"), [(JRef (VInt 20) (txt "java.lang.Integer") 1); (JRef (VInt 10) (txt "java.lang.Integer") 1); (JRef (VLong 3989525555) (txt "java.lang.Long") 1)], (txt "00EDCB5433          "));
  ((txt "%*sx"), [(JRef (VInt (-3)) (txt "java.lang.Integer") 1); (JRef (VStr (txt "hi")) (txt "java.lang.String") 1)], (txt "hi x"))].
Example ghc_primitive_pass : filter (fun v => negb (passes v)) ghc_primitive = [].
Proof. vm_compute. reflexivity. Qed.

(** GhcCasesTest.java testBigDecimal, with printf-tests.txt *)
Definition ghc_big : list vector := [
  ((txt "%.*f"), [(JRef (VBig 2) (txt "java.math.BigInteger") 1); (JRef (VDec (mkBD 33333333 8)) (txt "java.math.BigDecimal") 1)], (txt "0.33"));
  ((txt "%.3s"), [(JRef (VStr (txt "foobar")) (txt "java.lang.String") 1)], (txt "foo"));
  ((txt "%10.5d"), [(JRef (VBig 4) (txt "java.math.BigInteger") 1)], (txt "     00004"));
  ((txt "% d"), [(JRef (VBig 42) (txt "java.math.BigInteger") 1)], (txt " 42"));
  ((txt "% d"), [(JRef (VBig (-42)) (txt "java.math.BigInteger") 1)], (txt "-42"));
  ((txt "% 5d"), [(JRef (VBig 42) (txt "java.math.BigInteger") 1)], (txt "   42"));
  ((txt "% 5d"), [(JRef (VBig (-42)) (txt "java.math.BigInteger") 1)], (txt "  -42"));
  ((txt "% 15d"), [(JRef (VBig 42) (txt "java.math.BigInteger") 1)], (txt "             42"));
  ((txt "% 15d"), [(JRef (VBig (-42)) (txt "java.math.BigInteger") 1)], (txt "            -42"));
  ((txt "%+d"), [(JRef (VBig 42) (txt "java.math.BigInteger") 1)], (txt "+42"));
  ((txt "%+d"), [(JRef (VBig (-42)) (txt "java.math.BigInteger") 1)], (txt "-42"));
  ((txt "%+5d"), [(JRef (VBig 42) (txt "java.math.BigInteger") 1)], (txt "  +42"));
  ((txt "%+5d"), [(JRef (VBig (-42)) (txt "java.math.BigInteger") 1)], (txt "  -42"));
  ((txt "%+15d"), [(JRef (VBig 42) (txt "java.math.BigInteger") 1)], (txt "            +42"));
  ((txt "%+15d"), [(JRef (VBig (-42)) (txt "java.math.BigInteger") 1)], (txt "            -42"));
  ((txt "%0d"), [(JRef (VBig 42) (txt "java.math.BigInteger") 1)], (txt "42"));
  ((txt "%0d"), [(JRef (VBig (-42)) (txt "java.math.BigInteger") 1)], (txt "-42"));
  ((txt "%05d"), [(JRef (VBig 42) (txt "java.math.BigInteger") 1)], (txt "00042"));
  ((txt "%05d"), [(JRef (VBig (-42)) (txt "java.math.BigInteger") 1)], (txt "-0042"));
  ((txt "%015d"), [(JRef (VBig 42) (txt "java.math.BigInteger") 1)], (txt "000000000000042"));
  ((txt "%015d"), [(JRef (VBig (-42)) (txt "java.math.BigInteger") 1)], (txt "-00000000000042"));
  ((txt "%-d"), [(JRef (VBig 42) (txt "java.math.BigInteger") 1)], (txt "42"));
  ((txt "%-d"), [(JRef (VBig (-42)) (txt "java.math.BigInteger") 1)], (txt "-42"));
  ((txt "%-5d"), [(JRef (VBig 42) (txt "java.math.BigInteger") 1)], (txt "42   "));
  ((txt "%-5d"), [(JRef (VBig (-42)) (txt "java.math.BigInteger") 1)], (txt "-42  "));
  ((txt "%-15d"), [(JRef (VBig 42) (txt "java.math.BigInteger") 1)], (txt "42             "));
  ((txt "%-15d"), [(JRef (VBig (-42)) (txt "java.math.BigInteger") 1)], (txt "-42            "));
  ((txt "%-0d"), [(JRef (VBig 42) (txt "java.math.BigInteger") 1)], (txt "42"));
  ((txt "%-0d"), [(JRef (VBig (-42)) (txt "java.math.BigInteger") 1)], (txt "-42"));
  ((txt "%-05d"), [(JRef (VBig 42) (txt "java.math.BigInteger") 1)], (txt "42   "));
  ((txt "%-05d"), [(JRef (VBig (-42)) (txt "java.math.BigInteger") 1)], (txt "-42  "));
  ((txt "%-015d"), [(JRef (VBig 42) (txt "java.math.BigInteger") 1)], (txt "42             "));
  ((txt "%-015d"), [(JRef (VBig (-42)) (txt "java.math.BigInteger") 1)], (txt "-42            "));
  ((txt "%0-d"), [(JRef (VBig 42) (txt "java.math.BigInteger") 1)], (txt "42"));
  ((txt "%0-d"), [(JRef (VBig (-42)) (txt "java.math.BigInteger") 1)], (txt "-42"));
  ((txt "%0-5d"), [(JRef (VBig 42) (txt "java.math.BigInteger") 1)], (txt "42   "));
  ((txt "%0-5d"), [(JRef (VBig (-42)) (txt "java.math.BigInteger") 1)], (txt "-42  "));
  ((txt "%0-15d"), [(JRef (VBig 42) (txt "java.math.BigInteger") 1)], (txt "42             "));
  ((txt "%0-15d"), [(JRef (VBig (-42)) (txt "java.math.BigInteger") 1)], (txt "-42            "));
  ((txt "%.2f"), [(JRef (VDec (mkBD 428952 4)) (txt "java.math.BigDecimal") 1)], (txt "42.90"));
  ((txt "%.2F"), [(JRef (VDec (mkBD 428952 4)) (txt "java.math.BigDecimal") 1)], (txt "42.90"));
  ((txt "%.10f"), [(JRef (VDec (mkBD 428952 4)) (txt "java.math.BigDecimal") 1)], (txt "42.8952000000"));
  ((txt "%1.2f"), [(JRef (VDec (mkBD 428952 4)) (txt "java.math.BigDecimal") 1)], (txt "42.90"));
  ((txt "%6.2f"), [(JRef (VDec (mkBD 428952 4)) (txt "java.math.BigDecimal") 1)], (txt " 42.90"));
  ((txt "%+6.2f"), [(JRef (VDec (mkBD 428952 4)) (txt "java.math.BigDecimal") 1)], (txt "+42.90"));
  ((txt "%5.10f"), [(JRef (VDec (mkBD 428952 4)) (txt "java.math.BigDecimal") 1)], (txt "42.8952000000"));
  ((txt "%*s"), [(JRef (VBig 4) (txt "java.math.BigInteger") 1); (JRef (VStr (txt "foo")) (txt "java.lang.String") 1)], (txt " foo"));
  ((txt "%*.*f"), [(JRef (VBig 10) (txt "java.math.BigInteger") 1); (JRef (VBig 2) (txt "java.math.BigInteger") 1); (JRef (VDec (mkBD 314159265 8)) (txt "java.math.BigDecimal") 1)], (txt "      3.14"));
  ((txt "%-*.*f"), [(JRef (VBig 10) (txt "java.math.BigInteger") 1); (JRef (VBig 2) (txt "java.math.BigInteger") 1); (JRef (VDec (mkBD 314159265 8)) (txt "java.math.BigDecimal") 1)], (txt "3.14      "));
  ((txt "+%s+"), [(JRef (VStr (txt "hello")) (txt "java.lang.String") 1)], (txt "+hello+"));
  ((txt "+%d+"), [(JRef (VBig 10) (txt "java.math.BigInteger") 1)], (txt "+10+"));
  ((txt "%c"), [(JRef (VChar 97) (txt "java.lang.Character") 1)], (txt "a"));
  ((txt "%c"), [(JRef (VBig 32) (txt "java.math.BigInteger") 1)], (txt " "));
  ((txt "%c"), [(JRef (VBig 36) (txt "java.math.BigInteger") 1)], (txt "$"));
  ((txt "%d"), [(JRef (VBig 10) (txt "java.math.BigInteger") 1)], (txt "10"));
  ((txt "%+8d"), [(JRef (VBig 100) (txt "java.math.BigInteger") 1)], (txt "    +100"));
  ((txt "%+.8d"), [(JRef (VBig 100) (txt "java.math.BigInteger") 1)], (txt "+00000100"));
  ((txt "%+10.8d"), [(JRef (VBig 100) (txt "java.math.BigInteger") 1)], (txt " +00000100"));
  ((txt "%-1.5d"), [(JRef (VBig (-100)) (txt "java.math.BigInteger") 1)], (txt "-00100"));
  ((txt "%5d"), [(JRef (VBig 100) (txt "java.math.BigInteger") 1)], (txt "  100"));
  ((txt "%5d"), [(JRef (VBig (-100)) (txt "java.math.BigInteger") 1)], (txt " -100"));
  ((txt "%-5d"), [(JRef (VBig 100) (txt "java.math.BigInteger") 1)], (txt "100  "));
  ((txt "%-5d"), [(JRef (VBig (-100)) (txt "java.math.BigInteger") 1)], (txt "-100 "));
  ((txt "%-.5d"), [(JRef (VBig 100) (txt "java.math.BigInteger") 1)], (txt "00100"));
  ((txt "%-.5d"), [(JRef (VBig (-100)) (txt "java.math.BigInteger") 1)], (txt "-00100"));
  ((txt "%-8.5d"), [(JRef (VBig 100) (txt "java.math.BigInteger") 1)], (txt "00100   "));
  ((txt "%-8.5d"), [(JRef (VBig (-100)) (txt "java.math.BigInteger") 1)], (txt "-00100  "));
  ((txt "%05d"), [(JRef (VBig 100) (txt "java.math.BigInteger") 1)], (txt "00100"));
  ((txt "%05d"), [(JRef (VBig (-100)) (txt "java.math.BigInteger") 1)], (txt "-0100"));
  ((txt "% d"), [(JRef (VBig 100) (txt "java.math.BigInteger") 1)], (txt " 100"));
  ((txt "% d"), [(JRef (VBig (-100)) (txt "java.math.BigInteger") 1)], (txt "-100"));
  ((txt "% 5d"), [(JRef (VBig 100) (txt "java.math.BigInteger") 1)], (txt "  100"));
  ((txt "% 5d"), [(JRef (VBig (-100)) (txt "java.math.BigInteger") 1)], (txt " -100"));
  ((txt "% .5d"), [(JRef (VBig 100) (txt "java.math.BigInteger") 1)], (txt " 00100"));
  ((txt "% .5d"), [(JRef (VBig (-100)) (txt "java.math.BigInteger") 1)], (txt "-00100"));
  ((txt "% 8.5d"), [(JRef (VBig 100) (txt "java.math.BigInteger") 1)], (txt "   00100"));
  ((txt "% 8.5d"), [(JRef (VBig (-100)) (txt "java.math.BigInteger") 1)], (txt "  -00100"));
  ((txt "%.0d"), [(JRef (VBig 0) (txt "java.math.BigInteger") 1)], (txt ""));
  ((txt "%+#25.22d"), [(JRef (VBig (-1)) (txt "java.math.BigInteger") 1)], (txt "  -0000000000000000000001"));
  ((txt "%#-+ 08.5d"), [(JRef (VBig 100) (txt "java.math.BigInteger") 1)], (txt "+00100  "));
  ((txt "%#-+ 08.5d"), [(JRef (VBig 100) (txt "java.math.BigInteger") 1)], (txt "+00100  "));
  ((txt "%.40d"), [(JRef (VBig 1) (txt "java.math.BigInteger") 1)], (txt "0000000000000000000000000000000000000001"));
  ((txt "% .40d"), [(JRef (VBig 1) (txt "java.math.BigInteger") 1)], (txt " 0000000000000000000000000000000000000001"));
  ((txt "% .40d"), [(JRef (VBig 1) (txt "java.math.BigInteger") 1)], (txt " 0000000000000000000000000000000000000001"));
  ((txt "% d"), [(JRef (VBig 1) (txt "java.math.BigInteger") 1)], (txt " 1"));
  ((txt "%+ d"), [(JRef (VBig 1) (txt "java.math.BigInteger") 1)], (txt "+1"));
  ((txt "%.1s"), [(JRef (VStr (txt "foo")) (txt "java.lang.String") 1)], (txt "f"));
  ((txt "%.*s"), [(JRef (VBig 1) (txt "java.math.BigInteger") 1); (JRef (VStr (txt "foo")) (txt "java.lang.String") 1)], (txt "f"));
  ((txt "%*s"), [(JRef (VBig (-5)) (txt "java.math.BigInteger") 1); (JRef (VStr (txt "foo")) (txt "java.lang.String") 1)], (txt "foo  "));
  ((txt "%3c"), [(JRef (VChar 97) (txt "java.lang.Character") 1)], (txt "  a"));
  ((txt "%3d"), [(JRef (VBig 1234) (txt "java.math.BigInteger") 1)], (txt "1234"));
  ((txt "%-1d"), [(JRef (VBig 2) (txt "java.math.BigInteger") 1)], (txt "2"));
  ((txt "%2.4f"), [(JRef (VDec (mkBD 86 1)) (txt "java.math.BigDecimal") 1)], (txt "8.6000"));
  ((txt "%.0f"), [(JRef (VDec (mkBD 6 1)) (txt "java.math.BigDecimal") 1)], (txt "1"));
  ((txt "%-i"), [(JRef (VBig (-1)) (txt "java.math.BigInteger") 1)], (txt "-1"));
  ((txt "%-i"), [(JRef (VBig 1) (txt "java.math.BigInteger") 1)], (txt "1"));
  ((txt "%+i"), [(JRef (VBig 1) (txt "java.math.BigInteger") 1)], (txt "+1"));
  ((txt "%s"), [(JRef (VStr (txt "%%%%")) (txt "java.lang.String") 1)], (txt "%%%%"));
  ((txt "%%0"), [], (txt "%0"));
  ((txt "Hallo heimur"), [], (txt "Hallo heimur"));
  ((txt "%s"), [(JRef (VStr (txt "Hallo heimur")) (txt "java.lang.String") 1)], (txt "Hallo heimur"));
  ((txt "%d"), [(JRef (VBig 1024) (txt "java.math.BigInteger") 1)], (txt "1024"));
  ((txt "%d"), [(JRef (VBig (-1024)) (txt "java.math.BigInteger") 1)], (txt "-1024"));
  ((txt "%i"), [(JRef (VBig 1024) (txt "java.math.BigInteger") 1)], (txt "1024"));
  ((txt "%i"), [(JRef (VBig (-1024)) (txt "java.math.BigInteger") 1)], (txt "-1024"));
  ((txt "%c"), [(JRef (VChar 120) (txt "java.lang.Character") 1)], (txt "x"));
  ((txt "%%"), [], (txt "%"));
  ((txt "%+s"), [(JRef (VStr (txt "Hallo heimur")) (txt "java.lang.String") 1)], (txt "Hallo heimur"));
  ((txt "%+d"), [(JRef (VBig 1024) (txt "java.math.BigInteger") 1)], (txt "+1024"));
  ((txt "%+d"), [(JRef (VBig (-1024)) (txt "java.math.BigInteger") 1)], (txt "-1024"));
  ((txt "%+i"), [(JRef (VBig 1024) (txt "java.math.BigInteger") 1)], (txt "+1024"));
  ((txt "%+i"), [(JRef (VBig (-1024)) (txt "java.math.BigInteger") 1)], (txt "-1024"));
  ((txt "%+c"), [(JRef (VChar 120) (txt "java.lang.Character") 1)], (txt "x"));
  ((txt "% s"), [(JRef (VStr (txt "Hallo heimur")) (txt "java.lang.String") 1)], (txt "Hallo heimur"));
  ((txt "% d"), [(JRef (VBig 1024) (txt "java.math.BigInteger") 1)], (txt " 1024"));
  ((txt "% d"), [(JRef (VBig (-1024)) (txt "java.math.BigInteger") 1)], (txt "-1024"));
  ((txt "% i"), [(JRef (VBig 1024) (txt "java.math.BigInteger") 1)], (txt " 1024"));
  ((txt "% i"), [(JRef (VBig (-1024)) (txt "java.math.BigInteger") 1)], (txt "-1024"));
  ((txt "% c"), [(JRef (VChar 120) (txt "java.lang.Character") 1)], (txt "x"));
  ((txt "%+ s"), [(JRef (VStr (txt "Hallo heimur")) (txt "java.lang.String") 1)], (txt "Hallo heimur"));
  ((txt "%+ d"), [(JRef (VBig 1024) (txt "java.math.BigInteger") 1)], (txt "+1024"));
  ((txt "%+ d"), [(JRef (VBig (-1024)) (txt "java.math.BigInteger") 1)], (txt "-1024"));
  ((txt "%+ i"), [(JRef (VBig 1024) (txt "java.math.BigInteger") 1)], (txt "+1024"));
  ((txt "%+ i"), [(JRef (VBig (-1024)) (txt "java.math.BigInteger") 1)], (txt "-1024"));
  ((txt "%+ c"), [(JRef (VChar 120) (txt "java.lang.Character") 1)], (txt "x"));
  ((txt "%1s"), [(JRef (VStr (txt "Hallo heimur")) (txt "java.lang.String") 1)], (txt "Hallo heimur"));
  ((txt "%1d"), [(JRef (VBig 1024) (txt "java.math.BigInteger") 1)], (txt "1024"));
  ((txt "%1d"), [(JRef (VBig (-1024)) (txt "java.math.BigInteger") 1)], (txt "-1024"));
  ((txt "%1i"), [(JRef (VBig 1024) (txt "java.math.BigInteger") 1)], (txt "1024"));
  ((txt "%1i"), [(JRef (VBig (-1024)) (txt "java.math.BigInteger") 1)], (txt "-1024"));
  ((txt "%1c"), [(JRef (VChar 120) (txt "java.lang.Character") 1)], (txt "x"));
  ((txt "%20s"), [(JRef (VStr (txt "Hallo")) (txt "java.lang.String") 1)], (txt "               Hallo"));
  ((txt "%20d"), [(JRef (VBig 1024) (txt "java.math.BigInteger") 1)], (txt "                1024"));
  ((txt "%20d"), [(JRef (VBig (-1024)) (txt "java.math.BigInteger") 1)], (txt "               -1024"));
  ((txt "%20i"), [(JRef (VBig 1024) (txt "java.math.BigInteger") 1)], (txt "                1024"));
  ((txt "%20i"), [(JRef (VBig (-1024)) (txt "java.math.BigInteger") 1)], (txt "               -1024"));
  ((txt "%20c"), [(JRef (VChar 120) (txt "java.lang.Character") 1)], (txt "                   x"));
  ((txt "%-20s"), [(JRef (VStr (txt "Hallo")) (txt "java.lang.String") 1)], (txt "Hallo               "));
  ((txt "%-20d"), [(JRef (VBig 1024) (txt "java.math.BigInteger") 1)], (txt "1024                "));
  ((txt "%-20d"), [(JRef (VBig (-1024)) (txt "java.math.BigInteger") 1)], (txt "-1024               "));
  ((txt "%-20i"), [(JRef (VBig 1024) (txt "java.math.BigInteger") 1)], (txt "1024                "));
  ((txt "%-20i"), [(JRef (VBig (-1024)) (txt "java.math.BigInteger") 1)], (txt "-1024               "));
  ((txt "%-20c"), [(JRef (VChar 120) (txt "java.lang.Character") 1)], (txt "x                   "));
  ((txt "%020d"), [(JRef (VBig 1024) (txt "java.math.BigInteger") 1)], (txt "00000000000000001024"));
  ((txt "%020d"), [(JRef (VBig (-1024)) (txt "java.math.BigInteger") 1)], (txt "-0000000000000001024"));
  ((txt "%020i"), [(JRef (VBig 1024) (txt "java.math.BigInteger") 1)], (txt "00000000000000001024"));
  ((txt "%020i"), [(JRef (VBig (-1024)) (txt "java.math.BigInteger") 1)], (txt "-0000000000000001024"));
  ((txt "%0-20s"), [(JRef (VStr (txt "Hallo")) (txt "java.lang.String") 1)], (txt "Hallo               "));
  ((txt "%0-20d"), [(JRef (VBig 1024) (txt "java.math.BigInteger") 1)], (txt "1024                "));
  ((txt "%0-20d"), [(JRef (VBig (-1024)) (txt "java.math.BigInteger") 1)], (txt "-1024               "));
  ((txt "%0-20i"), [(JRef (VBig 1024) (txt "java.math.BigInteger") 1)], (txt "1024                "));
  ((txt "%0-20i"), [(JRef (VBig (-1024)) (txt "java.math.BigInteger") 1)], (txt "-1024               "));
  ((txt "%-020c"), [(JRef (VChar 120) (txt "java.lang.Character") 1)], (txt "x                   "));
  ((txt "%*s"), [(JRef (VBig 20) (txt "java.math.BigInteger") 1); (JRef (VStr (txt "Hallo")) (txt "java.lang.String") 1)], (txt "               Hallo"));
  ((txt "%*d"), [(JRef (VBig 20) (txt "java.math.BigInteger") 1); (JRef (VBig 1024) (txt "java.math.BigInteger") 1)], (txt "                1024"));
  ((txt "%*d"), [(JRef (VBig 20) (txt "java.math.BigInteger") 1); (JRef (VBig (-1024)) (txt "java.math.BigInteger") 1)], (txt "               -1024"));
  ((txt "%*i"), [(JRef (VBig 20) (txt "java.math.BigInteger") 1); (JRef (VBig 1024) (txt "java.math.BigInteger") 1)], (txt "                1024"));
  ((txt "%*i"), [(JRef (VBig 20) (txt "java.math.BigInteger") 1); (JRef (VBig (-1024)) (txt "java.math.BigInteger") 1)], (txt "               -1024"));
  ((txt "%*c"), [(JRef (VBig 20) (txt "java.math.BigInteger") 1); (JRef (VChar 120) (txt "java.lang.Character") 1)], (txt "                   x"));
  ((txt "%.20s"), [(JRef (VStr (txt "Hallo heimur")) (txt "java.lang.String") 1)], (txt "Hallo heimur"));
  ((txt "%.20d"), [(JRef (VBig 1024) (txt "java.math.BigInteger") 1)], (txt "00000000000000001024"));
  ((txt "%.20d"), [(JRef (VBig (-1024)) (txt "java.math.BigInteger") 1)], (txt "-00000000000000001024"));
  ((txt "%.20i"), [(JRef (VBig 1024) (txt "java.math.BigInteger") 1)], (txt "00000000000000001024"));
  ((txt "%.20i"), [(JRef (VBig (-1024)) (txt "java.math.BigInteger") 1)], (txt "-00000000000000001024"));
  ((txt "%20.5s"), [(JRef (VStr (txt "Hallo heimur")) (txt "java.lang.String") 1)], (txt "               Hallo"));
  ((txt "%20.5d"), [(JRef (VBig 1024) (txt "java.math.BigInteger") 1)], (txt "               01024"));
  ((txt "%20.5d"), [(JRef (VBig (-1024)) (txt "java.math.BigInteger") 1)], (txt "              -01024"));
  ((txt "%20.5i"), [(JRef (VBig 1024) (txt "java.math.BigInteger") 1)], (txt "               01024"));
  ((txt "%20.5i"), [(JRef (VBig (-1024)) (txt "java.math.BigInteger") 1)], (txt "              -01024"));
  ((txt "%020.5d"), [(JRef (VBig 1024) (txt "java.math.BigInteger") 1)], (txt "               01024"));
  ((txt "%020.5d"), [(JRef (VBig (-1024)) (txt "java.math.BigInteger") 1)], (txt "              -01024"));
  ((txt "%020.5i"), [(JRef (VBig 1024) (txt "java.math.BigInteger") 1)], (txt "               01024"));
  ((txt "%020.5i"), [(JRef (VBig (-1024)) (txt "java.math.BigInteger") 1)], (txt "              -01024"));
  ((txt "%.0s"), [(JRef (VStr (txt "Hallo heimur")) (txt "java.lang.String") 1)], (txt ""));
  ((txt "%20.0s"), [(JRef (VStr (txt "Hallo heimur")) (txt "java.lang.String") 1)], (txt "                    "));
  ((txt "%.s"), [(JRef (VStr (txt "Hallo heimur")) (txt "java.lang.String") 1)], (txt ""));
  ((txt "%20.s"), [(JRef (VStr (txt "Hallo heimur")) (txt "java.lang.String") 1)], (txt "                    "));
  ((txt "%20.0d"), [(JRef (VBig 1024) (txt "java.math.BigInteger") 1)], (txt "                1024"));
  ((txt "%20.d"), [(JRef (VBig (-1024)) (txt "java.math.BigInteger") 1)], (txt "               -1024"));
  ((txt "%20.d"), [(JRef (VBig 0) (txt "java.math.BigInteger") 1)], (txt "                    "));
  ((txt "%20.0i"), [(JRef (VBig 1024) (txt "java.math.BigInteger") 1)], (txt "                1024"));
  ((txt "%20.i"), [(JRef (VBig (-1024)) (txt "java.math.BigInteger") 1)], (txt "               -1024"));
  ((txt "%20.i"), [(JRef (VBig 0) (txt "java.math.BigInteger") 1)], (txt "                    "));
  ((txt "% -0+*.*s"), [(JRef (VBig 20) (txt "java.math.BigInteger") 1); (JRef (VBig 5) (txt "java.math.BigInteger") 1); (JRef (VStr (txt "Hallo heimur")) (txt "java.lang.String") 1)], (txt "Hallo               "));
  ((txt "% -0+*.*d"), [(JRef (VBig 20) (txt "java.math.BigInteger") 1); (JRef (VBig 5) (txt "java.math.BigInteger") 1); (JRef (VBig 1024) (txt "java.math.BigInteger") 1)], (txt "+01024              "));
  ((txt "% -0+*.*d"), [(JRef (VBig 20) (txt "java.math.BigInteger") 1); (JRef (VBig 5) (txt "java.math.BigInteger") 1); (JRef (VBig (-1024)) (txt "java.math.BigInteger") 1)], (txt "-01024              "));
  ((txt "% -0+*.*i"), [(JRef (VBig 20) (txt "java.math.BigInteger") 1); (JRef (VBig 5) (txt "java.math.BigInteger") 1); (JRef (VBig 1024) (txt "java.math.BigInteger") 1)], (txt "+01024              "));
  ((txt "% 0-+*.*i"), [(JRef (VBig 20) (txt "java.math.BigInteger") 1); (JRef (VBig 5) (txt "java.math.BigInteger") 1); (JRef (VBig (-1024)) (txt "java.math.BigInteger") 1)], (txt "-01024              "))].
Example ghc_big_pass : filter (fun v => negb (passes v)) ghc_big = [].
Proof. vm_compute. reflexivity. Qed.

(** SeqFormatterTest.java (the calls of java.util.Formatter it compares with are written out) *)
Definition seqformatter : list vector := [
  ((txt "%12d"), [(JRef (VInt 0) (txt "java.lang.Integer") 1)], (txt "           0"));
  ((txt "%12d"), [(JRef (VInt 1) (txt "java.lang.Integer") 1)], (txt "           1"));
  ((txt "%12d"), [(JRef (VInt (-1)) (txt "java.lang.Integer") 1)], (txt "          -1"));
  ((txt "%12d"), [(JRef (VInt 123) (txt "java.lang.Integer") 1)], (txt "         123"));
  ((txt "%12d"), [(JRef (VInt (-123)) (txt "java.lang.Integer") 1)], (txt "        -123"));
  ((txt "%12d"), [(JRef (VInt 123456789) (txt "java.lang.Integer") 1)], (txt "   123456789"));
  ((txt "%12d"), [(JRef (VInt (-123456789)) (txt "java.lang.Integer") 1)], (txt "  -123456789"));
  ((txt "%12d"), [(JRef (VInt 2147483647) (txt "java.lang.Integer") 1)], (txt "  2147483647"));
  ((txt "%12d"), [(JRef (VInt (-2147483648)) (txt "java.lang.Integer") 1)], (txt " -2147483648"));
  ((txt "%012d"), [(JRef (VInt 0) (txt "java.lang.Integer") 1)], (txt "000000000000"));
  ((txt "%012d"), [(JRef (VInt 1) (txt "java.lang.Integer") 1)], (txt "000000000001"));
  ((txt "%012d"), [(JRef (VInt (-1)) (txt "java.lang.Integer") 1)], (txt "-00000000001"));
  ((txt "%012d"), [(JRef (VInt 123) (txt "java.lang.Integer") 1)], (txt "000000000123"));
  ((txt "%012d"), [(JRef (VInt (-123)) (txt "java.lang.Integer") 1)], (txt "-00000000123"));
  ((txt "%012d"), [(JRef (VInt 123456789) (txt "java.lang.Integer") 1)], (txt "000123456789"));
  ((txt "%012d"), [(JRef (VInt (-123456789)) (txt "java.lang.Integer") 1)], (txt "-00123456789"));
  ((txt "%012d"), [(JRef (VInt 2147483647) (txt "java.lang.Integer") 1)], (txt "002147483647"));
  ((txt "%012d"), [(JRef (VInt (-2147483648)) (txt "java.lang.Integer") 1)], (txt "-02147483648"));
  ((txt "%- 12d"), [(JRef (VInt 0) (txt "java.lang.Integer") 1)], (txt " 0          "));
  ((txt "%- 12d"), [(JRef (VInt 1) (txt "java.lang.Integer") 1)], (txt " 1          "));
  ((txt "%- 12d"), [(JRef (VInt (-1)) (txt "java.lang.Integer") 1)], (txt "-1          "));
  ((txt "%- 12d"), [(JRef (VInt 123) (txt "java.lang.Integer") 1)], (txt " 123        "));
  ((txt "%- 12d"), [(JRef (VInt (-123)) (txt "java.lang.Integer") 1)], (txt "-123        "));
  ((txt "%- 12d"), [(JRef (VInt 123456789) (txt "java.lang.Integer") 1)], (txt " 123456789  "));
  ((txt "%- 12d"), [(JRef (VInt (-123456789)) (txt "java.lang.Integer") 1)], (txt "-123456789  "));
  ((txt "%- 12d"), [(JRef (VInt 2147483647) (txt "java.lang.Integer") 1)], (txt " 2147483647 "));
  ((txt "%- 12d"), [(JRef (VInt (-2147483648)) (txt "java.lang.Integer") 1)], (txt "-2147483648 "));
  ((txt "%+012d"), [(JRef (VInt 0) (txt "java.lang.Integer") 1)], (txt "+00000000000"));
  ((txt "%+012d"), [(JRef (VInt 1) (txt "java.lang.Integer") 1)], (txt "+00000000001"));
  ((txt "%+012d"), [(JRef (VInt (-1)) (txt "java.lang.Integer") 1)], (txt "-00000000001"));
  ((txt "%+012d"), [(JRef (VInt 123) (txt "java.lang.Integer") 1)], (txt "+00000000123"));
  ((txt "%+012d"), [(JRef (VInt (-123)) (txt "java.lang.Integer") 1)], (txt "-00000000123"));
  ((txt "%+012d"), [(JRef (VInt 123456789) (txt "java.lang.Integer") 1)], (txt "+00123456789"));
  ((txt "%+012d"), [(JRef (VInt (-123456789)) (txt "java.lang.Integer") 1)], (txt "-00123456789"));
  ((txt "%+012d"), [(JRef (VInt 2147483647) (txt "java.lang.Integer") 1)], (txt "+02147483647"));
  ((txt "%+012d"), [(JRef (VInt (-2147483648)) (txt "java.lang.Integer") 1)], (txt "-02147483648"));
  ((txt "%20X"), [(JRef (VLong 1) (txt "java.lang.Long") 1)], (txt "                   1"));
  ((txt "%20X"), [(JRef (VLong (-1)) (txt "java.lang.Long") 1)], (txt "    FFFFFFFFFFFFFFFF"));
  ((txt "%20X"), [(JRef (VLong 123) (txt "java.lang.Long") 1)], (txt "                  7B"));
  ((txt "%20X"), [(JRef (VLong (-123)) (txt "java.lang.Long") 1)], (txt "    FFFFFFFFFFFFFF85"));
  ((txt "%20X"), [(JRef (VLong 123456789) (txt "java.lang.Long") 1)], (txt "             75BCD15"));
  ((txt "%20X"), [(JRef (VLong (-123456789)) (txt "java.lang.Long") 1)], (txt "    FFFFFFFFF8A432EB"));
  ((txt "%20X"), [(JRef (VLong 2147483647) (txt "java.lang.Long") 1)], (txt "            7FFFFFFF"));
  ((txt "%20X"), [(JRef (VLong (-2147483648)) (txt "java.lang.Long") 1)], (txt "    FFFFFFFF80000000"));
  ((txt "%20X"), [(JRef (VLong 9223372036854775807) (txt "java.lang.Long") 1)], (txt "    7FFFFFFFFFFFFFFF"));
  ((txt "%20X"), [(JRef (VLong (-9223372036854775808)) (txt "java.lang.Long") 1)], (txt "    8000000000000000"));
  ((txt "%20X"), [(JRef (VLong 81985529216486895) (txt "java.lang.Long") 1)], (txt "     123456789ABCDEF"));
  ((txt "%020X"), [(JRef (VLong 1) (txt "java.lang.Long") 1)], (txt "00000000000000000001"));
  ((txt "%020X"), [(JRef (VLong (-1)) (txt "java.lang.Long") 1)], (txt "0000FFFFFFFFFFFFFFFF"));
  ((txt "%020X"), [(JRef (VLong 123) (txt "java.lang.Long") 1)], (txt "0000000000000000007B"));
  ((txt "%020X"), [(JRef (VLong (-123)) (txt "java.lang.Long") 1)], (txt "0000FFFFFFFFFFFFFF85"));
  ((txt "%020X"), [(JRef (VLong 123456789) (txt "java.lang.Long") 1)], (txt "000000000000075BCD15"));
  ((txt "%020X"), [(JRef (VLong (-123456789)) (txt "java.lang.Long") 1)], (txt "0000FFFFFFFFF8A432EB"));
  ((txt "%020X"), [(JRef (VLong 2147483647) (txt "java.lang.Long") 1)], (txt "0000000000007FFFFFFF"));
  ((txt "%020X"), [(JRef (VLong (-2147483648)) (txt "java.lang.Long") 1)], (txt "0000FFFFFFFF80000000"));
  ((txt "%020X"), [(JRef (VLong 9223372036854775807) (txt "java.lang.Long") 1)], (txt "00007FFFFFFFFFFFFFFF"));
  ((txt "%020X"), [(JRef (VLong (-9223372036854775808)) (txt "java.lang.Long") 1)], (txt "00008000000000000000"));
  ((txt "%020X"), [(JRef (VLong 81985529216486895) (txt "java.lang.Long") 1)], (txt "00000123456789ABCDEF"));
  ((txt "%-20X"), [(JRef (VLong 1) (txt "java.lang.Long") 1)], (txt "1                   "));
  ((txt "%-20X"), [(JRef (VLong (-1)) (txt "java.lang.Long") 1)], (txt "FFFFFFFFFFFFFFFF    "));
  ((txt "%-20X"), [(JRef (VLong 123) (txt "java.lang.Long") 1)], (txt "7B                  "));
  ((txt "%-20X"), [(JRef (VLong (-123)) (txt "java.lang.Long") 1)], (txt "FFFFFFFFFFFFFF85    "));
  ((txt "%-20X"), [(JRef (VLong 123456789) (txt "java.lang.Long") 1)], (txt "75BCD15             "));
  ((txt "%-20X"), [(JRef (VLong (-123456789)) (txt "java.lang.Long") 1)], (txt "FFFFFFFFF8A432EB    "));
  ((txt "%-20X"), [(JRef (VLong 2147483647) (txt "java.lang.Long") 1)], (txt "7FFFFFFF            "));
  ((txt "%-20X"), [(JRef (VLong (-2147483648)) (txt "java.lang.Long") 1)], (txt "FFFFFFFF80000000    "));
  ((txt "%-20X"), [(JRef (VLong 9223372036854775807) (txt "java.lang.Long") 1)], (txt "7FFFFFFFFFFFFFFF    "));
  ((txt "%-20X"), [(JRef (VLong (-9223372036854775808)) (txt "java.lang.Long") 1)], (txt "8000000000000000    "));
  ((txt "%-20X"), [(JRef (VLong 81985529216486895) (txt "java.lang.Long") 1)], (txt "123456789ABCDEF     "));
  ((txt "%#-20X"), [(JRef (VLong 1) (txt "java.lang.Long") 1)], (txt "0X1                 "));
  ((txt "%#-20X"), [(JRef (VLong (-1)) (txt "java.lang.Long") 1)], (txt "0XFFFFFFFFFFFFFFFF  "));
  ((txt "%#-20X"), [(JRef (VLong 123) (txt "java.lang.Long") 1)], (txt "0X7B                "));
  ((txt "%#-20X"), [(JRef (VLong (-123)) (txt "java.lang.Long") 1)], (txt "0XFFFFFFFFFFFFFF85  "));
  ((txt "%#-20X"), [(JRef (VLong 123456789) (txt "java.lang.Long") 1)], (txt "0X75BCD15           "));
  ((txt "%#-20X"), [(JRef (VLong (-123456789)) (txt "java.lang.Long") 1)], (txt "0XFFFFFFFFF8A432EB  "));
  ((txt "%#-20X"), [(JRef (VLong 2147483647) (txt "java.lang.Long") 1)], (txt "0X7FFFFFFF          "));
  ((txt "%#-20X"), [(JRef (VLong (-2147483648)) (txt "java.lang.Long") 1)], (txt "0XFFFFFFFF80000000  "));
  ((txt "%#-20X"), [(JRef (VLong 9223372036854775807) (txt "java.lang.Long") 1)], (txt "0X7FFFFFFFFFFFFFFF  "));
  ((txt "%#-20X"), [(JRef (VLong (-9223372036854775808)) (txt "java.lang.Long") 1)], (txt "0X8000000000000000  "));
  ((txt "%#-20X"), [(JRef (VLong 81985529216486895) (txt "java.lang.Long") 1)], (txt "0X123456789ABCDEF   "));
  ((txt "%20.7f"), [(JRef (VDouble 0) (txt "java.lang.Double") 1)], (txt "           0.0000000"));
  ((txt "%20.7E"), [(JRef (VDouble 0) (txt "java.lang.Double") 1)], (txt "       0.0000000E+00"));
  ((txt "%20.7f"), [(JRef (VDouble 4607182418800017408) (txt "java.lang.Double") 1)], (txt "           1.0000000"));
  ((txt "%20.7E"), [(JRef (VDouble 4607182418800017408) (txt "java.lang.Double") 1)], (txt "       1.0000000E+00"));
  ((txt "%20.7f"), [(JRef (VDouble (-4616189618054758400)) (txt "java.lang.Double") 1)], (txt "          -1.0000000"));
  ((txt "%20.7E"), [(JRef (VDouble (-4616189618054758400)) (txt "java.lang.Double") 1)], (txt "      -1.0000000E+00"));
  ((txt "%20.7f"), [(JRef (VDouble 4638355772470722560) (txt "java.lang.Double") 1)], (txt "         123.0000000"));
  ((txt "%20.7E"), [(JRef (VDouble 4638355772470722560) (txt "java.lang.Double") 1)], (txt "       1.2300000E+02"));
  ((txt "%20.7f"), [(JRef (VDouble (-4585016264384053248)) (txt "java.lang.Double") 1)], (txt "        -123.0000000"));
  ((txt "%20.7E"), [(JRef (VDouble (-4585016264384053248)) (txt "java.lang.Double") 1)], (txt "      -1.2300000E+02"));
  ((txt "%20.7f"), [(JRef (VDouble 4728057454347157504) (txt "java.lang.Double") 1)], (txt "   123456789.0000000"));
  ((txt "%20.7E"), [(JRef (VDouble 4728057454347157504) (txt "java.lang.Double") 1)], (txt "       1.2345679E+08"));
  ((txt "%20.7f"), [(JRef (VDouble (-4495314582507618304)) (txt "java.lang.Double") 1)], (txt "  -123456789.0000000"));
  ((txt "%20.7E"), [(JRef (VDouble (-4495314582507618304)) (txt "java.lang.Double") 1)], (txt "      -1.2345679E+08"));
  ((txt "%20.7f"), [(JRef (VDouble 5183643170566569984) (txt "java.lang.Double") 1)], (txt "340282346638528860000000000000000000000.0000000"));
  ((txt "%20.7E"), [(JRef (VDouble 5183643170566569984) (txt "java.lang.Double") 1)], (txt "       3.4028235E+38"));
  ((txt "%20.7f"), [(JRef (VDouble 3936146074321813504) (txt "java.lang.Double") 1)], (txt "           0.0000000"));
  ((txt "%20.7E"), [(JRef (VDouble 3936146074321813504) (txt "java.lang.Double") 1)], (txt "       1.4012985E-45"));
  ((txt "%20.7f"), [(JRef (VDouble 9218868437227405311) (txt "java.lang.Double") 1)], (txt "179769313486231570000000000000000000000000000000000000000000000000000000000000000000000000000000000000000000000000000000000000000000000000000000000000000000000000000000000000000000000000000000000000000000000000000000000000000000000000000000000000000000000000000000000000000000000000000000000000000000000000000.0000000"));
  ((txt "%20.7E"), [(JRef (VDouble 9218868437227405311) (txt "java.lang.Double") 1)], (txt "      1.7976931E+308"));
  ((txt "%20.7f"), [(JRef (VDouble 1) (txt "java.lang.Double") 1)], (txt "           0.0000000"));
  ((txt "%20.7E"), [(JRef (VDouble 1) (txt "java.lang.Double") 1)], (txt "      4.9000000E-324"));
  ((txt "%20.7f"), [(JRef (VDouble 4614256656552045848) (txt "java.lang.Double") 1)], (txt "           3.1415927"));
  ((txt "%20.7E"), [(JRef (VDouble 4614256656552045848) (txt "java.lang.Double") 1)], (txt "       3.1415927E+00"));
  ((txt "%20.7f"), [(JRef (VDouble 4613303445314885481) (txt "java.lang.Double") 1)], (txt "           2.7182818"));
  ((txt "%20.7E"), [(JRef (VDouble 4613303445314885481) (txt "java.lang.Double") 1)], (txt "       2.7182818E+00"));
  ((txt "%20.7f"), [(JRef (VDouble 4599405781057128579) (txt "java.lang.Double") 1)], (txt "           0.3183099"));
  ((txt "%20.7E"), [(JRef (VDouble 4599405781057128579) (txt "java.lang.Double") 1)], (txt "       3.1830989E-01"));
  ((txt "%20.7f"), [(JRef (VDouble 4600298746774613816) (txt "java.lang.Double") 1)], (txt "           0.3678794"));
  ((txt "%20.7E"), [(JRef (VDouble 4600298746774613816) (txt "java.lang.Double") 1)], (txt "       3.6787944E-01"));
  ((txt "%20.7f"), [(JRef (VDouble 9221120237041090560) (txt "java.lang.Double") 1)], (txt "                 NaN"));
  ((txt "%20.7E"), [(JRef (VDouble 9221120237041090560) (txt "java.lang.Double") 1)], (txt "                 NAN"));
  ((txt "%20.7f"), [(JRef (VDouble (-4503599627370496)) (txt "java.lang.Double") 1)], (txt "           -Infinity"));
  ((txt "%20.7E"), [(JRef (VDouble (-4503599627370496)) (txt "java.lang.Double") 1)], (txt "           -INFINITY"));
  ((txt "%20.7f"), [(JRef (VDouble 9218868437227405312) (txt "java.lang.Double") 1)], (txt "            Infinity"));
  ((txt "%20.7E"), [(JRef (VDouble 9218868437227405312) (txt "java.lang.Double") 1)], (txt "            INFINITY"));
  ((txt "%020.7f"), [(JRef (VDouble 0) (txt "java.lang.Double") 1)], (txt "000000000000.0000000"));
  ((txt "%020.7E"), [(JRef (VDouble 0) (txt "java.lang.Double") 1)], (txt "00000000.0000000E+00"));
  ((txt "%020.7f"), [(JRef (VDouble 4607182418800017408) (txt "java.lang.Double") 1)], (txt "000000000001.0000000"));
  ((txt "%020.7E"), [(JRef (VDouble 4607182418800017408) (txt "java.lang.Double") 1)], (txt "00000001.0000000E+00"));
  ((txt "%020.7f"), [(JRef (VDouble (-4616189618054758400)) (txt "java.lang.Double") 1)], (txt "-00000000001.0000000"));
  ((txt "%020.7E"), [(JRef (VDouble (-4616189618054758400)) (txt "java.lang.Double") 1)], (txt "-0000001.0000000E+00"));
  ((txt "%020.7f"), [(JRef (VDouble 4638355772470722560) (txt "java.lang.Double") 1)], (txt "000000000123.0000000"));
  ((txt "%020.7E"), [(JRef (VDouble 4638355772470722560) (txt "java.lang.Double") 1)], (txt "00000001.2300000E+02"));
  ((txt "%020.7f"), [(JRef (VDouble (-4585016264384053248)) (txt "java.lang.Double") 1)], (txt "-00000000123.0000000"));
  ((txt "%020.7E"), [(JRef (VDouble (-4585016264384053248)) (txt "java.lang.Double") 1)], (txt "-0000001.2300000E+02"));
  ((txt "%020.7f"), [(JRef (VDouble 4728057454347157504) (txt "java.lang.Double") 1)], (txt "000123456789.0000000"));
  ((txt "%020.7E"), [(JRef (VDouble 4728057454347157504) (txt "java.lang.Double") 1)], (txt "00000001.2345679E+08"));
  ((txt "%020.7f"), [(JRef (VDouble (-4495314582507618304)) (txt "java.lang.Double") 1)], (txt "-00123456789.0000000"));
  ((txt "%020.7E"), [(JRef (VDouble (-4495314582507618304)) (txt "java.lang.Double") 1)], (txt "-0000001.2345679E+08"));
  ((txt "%020.7f"), [(JRef (VDouble 5183643170566569984) (txt "java.lang.Double") 1)], (txt "340282346638528860000000000000000000000.0000000"));
  ((txt "%020.7E"), [(JRef (VDouble 5183643170566569984) (txt "java.lang.Double") 1)], (txt "00000003.4028235E+38"));
  ((txt "%020.7f"), [(JRef (VDouble 3936146074321813504) (txt "java.lang.Double") 1)], (txt "000000000000.0000000"));
  ((txt "%020.7E"), [(JRef (VDouble 3936146074321813504) (txt "java.lang.Double") 1)], (txt "00000001.4012985E-45"));
  ((txt "%020.7f"), [(JRef (VDouble 9218868437227405311) (txt "java.lang.Double") 1)], (txt "179769313486231570000000000000000000000000000000000000000000000000000000000000000000000000000000000000000000000000000000000000000000000000000000000000000000000000000000000000000000000000000000000000000000000000000000000000000000000000000000000000000000000000000000000000000000000000000000000000000000000000000.0000000"));
  ((txt "%020.7E"), [(JRef (VDouble 9218868437227405311) (txt "java.lang.Double") 1)], (txt "0000001.7976931E+308"));
  ((txt "%020.7f"), [(JRef (VDouble 1) (txt "java.lang.Double") 1)], (txt "000000000000.0000000"));
  ((txt "%020.7E"), [(JRef (VDouble 1) (txt "java.lang.Double") 1)], (txt "0000004.9000000E-324"));
  ((txt "%020.7f"), [(JRef (VDouble 4614256656552045848) (txt "java.lang.Double") 1)], (txt "000000000003.1415927"));
  ((txt "%020.7E"), [(JRef (VDouble 4614256656552045848) (txt "java.lang.Double") 1)], (txt "00000003.1415927E+00"));
  ((txt "%020.7f"), [(JRef (VDouble 4613303445314885481) (txt "java.lang.Double") 1)], (txt "000000000002.7182818"));
  ((txt "%020.7E"), [(JRef (VDouble 4613303445314885481) (txt "java.lang.Double") 1)], (txt "00000002.7182818E+00"));
  ((txt "%020.7f"), [(JRef (VDouble 4599405781057128579) (txt "java.lang.Double") 1)], (txt "000000000000.3183099"));
  ((txt "%020.7E"), [(JRef (VDouble 4599405781057128579) (txt "java.lang.Double") 1)], (txt "00000003.1830989E-01"));
  ((txt "%020.7f"), [(JRef (VDouble 4600298746774613816) (txt "java.lang.Double") 1)], (txt "000000000000.3678794"));
  ((txt "%020.7E"), [(JRef (VDouble 4600298746774613816) (txt "java.lang.Double") 1)], (txt "00000003.6787944E-01"));
  ((txt "%020.7f"), [(JRef (VDouble 9221120237041090560) (txt "java.lang.Double") 1)], (txt "                 NaN"));
  ((txt "%020.7E"), [(JRef (VDouble 9221120237041090560) (txt "java.lang.Double") 1)], (txt "                 NAN"));
  ((txt "%020.7f"), [(JRef (VDouble (-4503599627370496)) (txt "java.lang.Double") 1)], (txt "           -Infinity"));
  ((txt "%020.7E"), [(JRef (VDouble (-4503599627370496)) (txt "java.lang.Double") 1)], (txt "           -INFINITY"));
  ((txt "%020.7f"), [(JRef (VDouble 9218868437227405312) (txt "java.lang.Double") 1)], (txt "            Infinity"));
  ((txt "%020.7E"), [(JRef (VDouble 9218868437227405312) (txt "java.lang.Double") 1)], (txt "            INFINITY"));
  ((txt "%-20.7f"), [(JRef (VDouble 0) (txt "java.lang.Double") 1)], (txt "0.0000000           "));
  ((txt "%-20.7E"), [(JRef (VDouble 0) (txt "java.lang.Double") 1)], (txt "0.0000000E+00       "));
  ((txt "%-20.7f"), [(JRef (VDouble 4607182418800017408) (txt "java.lang.Double") 1)], (txt "1.0000000           "));
  ((txt "%-20.7E"), [(JRef (VDouble 4607182418800017408) (txt "java.lang.Double") 1)], (txt "1.0000000E+00       "));
  ((txt "%-20.7f"), [(JRef (VDouble (-4616189618054758400)) (txt "java.lang.Double") 1)], (txt "-1.0000000          "));
  ((txt "%-20.7E"), [(JRef (VDouble (-4616189618054758400)) (txt "java.lang.Double") 1)], (txt "-1.0000000E+00      "));
  ((txt "%-20.7f"), [(JRef (VDouble 4638355772470722560) (txt "java.lang.Double") 1)], (txt "123.0000000         "));
  ((txt "%-20.7E"), [(JRef (VDouble 4638355772470722560) (txt "java.lang.Double") 1)], (txt "1.2300000E+02       "));
  ((txt "%-20.7f"), [(JRef (VDouble (-4585016264384053248)) (txt "java.lang.Double") 1)], (txt "-123.0000000        "));
  ((txt "%-20.7E"), [(JRef (VDouble (-4585016264384053248)) (txt "java.lang.Double") 1)], (txt "-1.2300000E+02      "));
  ((txt "%-20.7f"), [(JRef (VDouble 4728057454347157504) (txt "java.lang.Double") 1)], (txt "123456789.0000000   "));
  ((txt "%-20.7E"), [(JRef (VDouble 4728057454347157504) (txt "java.lang.Double") 1)], (txt "1.2345679E+08       "));
  ((txt "%-20.7f"), [(JRef (VDouble (-4495314582507618304)) (txt "java.lang.Double") 1)], (txt "-123456789.0000000  "));
  ((txt "%-20.7E"), [(JRef (VDouble (-4495314582507618304)) (txt "java.lang.Double") 1)], (txt "-1.2345679E+08      "));
  ((txt "%-20.7f"), [(JRef (VDouble 5183643170566569984) (txt "java.lang.Double") 1)], (txt "340282346638528860000000000000000000000.0000000"));
  ((txt "%-20.7E"), [(JRef (VDouble 5183643170566569984) (txt "java.lang.Double") 1)], (txt "3.4028235E+38       "));
  ((txt "%-20.7f"), [(JRef (VDouble 3936146074321813504) (txt "java.lang.Double") 1)], (txt "0.0000000           "));
  ((txt "%-20.7E"), [(JRef (VDouble 3936146074321813504) (txt "java.lang.Double") 1)], (txt "1.4012985E-45       "));
  ((txt "%-20.7f"), [(JRef (VDouble 9218868437227405311) (txt "java.lang.Double") 1)], (txt "179769313486231570000000000000000000000000000000000000000000000000000000000000000000000000000000000000000000000000000000000000000000000000000000000000000000000000000000000000000000000000000000000000000000000000000000000000000000000000000000000000000000000000000000000000000000000000000000000000000000000000000.0000000"));
  ((txt "%-20.7E"), [(JRef (VDouble 9218868437227405311) (txt "java.lang.Double") 1)], (txt "1.7976931E+308      "));
  ((txt "%-20.7f"), [(JRef (VDouble 1) (txt "java.lang.Double") 1)], (txt "0.0000000           "));
  ((txt "%-20.7E"), [(JRef (VDouble 1) (txt "java.lang.Double") 1)], (txt "4.9000000E-324      "));
  ((txt "%-20.7f"), [(JRef (VDouble 4614256656552045848) (txt "java.lang.Double") 1)], (txt "3.1415927           "));
  ((txt "%-20.7E"), [(JRef (VDouble 4614256656552045848) (txt "java.lang.Double") 1)], (txt "3.1415927E+00       "));
  ((txt "%-20.7f"), [(JRef (VDouble 4613303445314885481) (txt "java.lang.Double") 1)], (txt "2.7182818           "));
  ((txt "%-20.7E"), [(JRef (VDouble 4613303445314885481) (txt "java.lang.Double") 1)], (txt "2.7182818E+00       "));
  ((txt "%-20.7f"), [(JRef (VDouble 4599405781057128579) (txt "java.lang.Double") 1)], (txt "0.3183099           "));
  ((txt "%-20.7E"), [(JRef (VDouble 4599405781057128579) (txt "java.lang.Double") 1)], (txt "3.1830989E-01       "));
  ((txt "%-20.7f"), [(JRef (VDouble 4600298746774613816) (txt "java.lang.Double") 1)], (txt "0.3678794           "));
  ((txt "%-20.7E"), [(JRef (VDouble 4600298746774613816) (txt "java.lang.Double") 1)], (txt "3.6787944E-01       "));
  ((txt "%-20.7f"), [(JRef (VDouble 9221120237041090560) (txt "java.lang.Double") 1)], (txt "NaN                 "));
  ((txt "%-20.7E"), [(JRef (VDouble 9221120237041090560) (txt "java.lang.Double") 1)], (txt "NAN                 "));
  ((txt "%-20.7f"), [(JRef (VDouble (-4503599627370496)) (txt "java.lang.Double") 1)], (txt "-Infinity           "));
  ((txt "%-20.7E"), [(JRef (VDouble (-4503599627370496)) (txt "java.lang.Double") 1)], (txt "-INFINITY           "));
  ((txt "%-20.7f"), [(JRef (VDouble 9218868437227405312) (txt "java.lang.Double") 1)], (txt "Infinity            "));
  ((txt "%-20.7E"), [(JRef (VDouble 9218868437227405312) (txt "java.lang.Double") 1)], (txt "INFINITY            "));
  ((txt "%#-20.7f"), [(JRef (VDouble 0) (txt "java.lang.Double") 1)], (txt "0.0000000           "));
  ((txt "%#-20.7E"), [(JRef (VDouble 0) (txt "java.lang.Double") 1)], (txt "0.0000000E+00       "));
  ((txt "%#-20.7f"), [(JRef (VDouble 4607182418800017408) (txt "java.lang.Double") 1)], (txt "1.0000000           "));
  ((txt "%#-20.7E"), [(JRef (VDouble 4607182418800017408) (txt "java.lang.Double") 1)], (txt "1.0000000E+00       "));
  ((txt "%#-20.7f"), [(JRef (VDouble (-4616189618054758400)) (txt "java.lang.Double") 1)], (txt "-1.0000000          "));
  ((txt "%#-20.7E"), [(JRef (VDouble (-4616189618054758400)) (txt "java.lang.Double") 1)], (txt "-1.0000000E+00      "));
  ((txt "%#-20.7f"), [(JRef (VDouble 4638355772470722560) (txt "java.lang.Double") 1)], (txt "123.0000000         "));
  ((txt "%#-20.7E"), [(JRef (VDouble 4638355772470722560) (txt "java.lang.Double") 1)], (txt "1.2300000E+02       "));
  ((txt "%#-20.7f"), [(JRef (VDouble (-4585016264384053248)) (txt "java.lang.Double") 1)], (txt "-123.0000000        "));
  ((txt "%#-20.7E"), [(JRef (VDouble (-4585016264384053248)) (txt "java.lang.Double") 1)], (txt "-1.2300000E+02      "));
  ((txt "%#-20.7f"), [(JRef (VDouble 4728057454347157504) (txt "java.lang.Double") 1)], (txt "123456789.0000000   "));
  ((txt "%#-20.7E"), [(JRef (VDouble 4728057454347157504) (txt "java.lang.Double") 1)], (txt "1.2345679E+08       "));
  ((txt "%#-20.7f"), [(JRef (VDouble (-4495314582507618304)) (txt "java.lang.Double") 1)], (txt "-123456789.0000000  "));
  ((txt "%#-20.7E"), [(JRef (VDouble (-4495314582507618304)) (txt "java.lang.Double") 1)], (txt "-1.2345679E+08      "));
  ((txt "%#-20.7f"), [(JRef (VDouble 5183643170566569984) (txt "java.lang.Double") 1)], (txt "340282346638528860000000000000000000000.0000000"));
  ((txt "%#-20.7E"), [(JRef (VDouble 5183643170566569984) (txt "java.lang.Double") 1)], (txt "3.4028235E+38       "));
  ((txt "%#-20.7f"), [(JRef (VDouble 3936146074321813504) (txt "java.lang.Double") 1)], (txt "0.0000000           "));
  ((txt "%#-20.7E"), [(JRef (VDouble 3936146074321813504) (txt "java.lang.Double") 1)], (txt "1.4012985E-45       "));
  ((txt "%#-20.7f"), [(JRef (VDouble 9218868437227405311) (txt "java.lang.Double") 1)], (txt "179769313486231570000000000000000000000000000000000000000000000000000000000000000000000000000000000000000000000000000000000000000000000000000000000000000000000000000000000000000000000000000000000000000000000000000000000000000000000000000000000000000000000000000000000000000000000000000000000000000000000000000.0000000"));
  ((txt "%#-20.7E"), [(JRef (VDouble 9218868437227405311) (txt "java.lang.Double") 1)], (txt "1.7976931E+308      "));
  ((txt "%#-20.7f"), [(JRef (VDouble 1) (txt "java.lang.Double") 1)], (txt "0.0000000           "));
  ((txt "%#-20.7E"), [(JRef (VDouble 1) (txt "java.lang.Double") 1)], (txt "4.9000000E-324      "));
  ((txt "%#-20.7f"), [(JRef (VDouble 4614256656552045848) (txt "java.lang.Double") 1)], (txt "3.1415927           "));
  ((txt "%#-20.7E"), [(JRef (VDouble 4614256656552045848) (txt "java.lang.Double") 1)], (txt "3.1415927E+00       "));
  ((txt "%#-20.7f"), [(JRef (VDouble 4613303445314885481) (txt "java.lang.Double") 1)], (txt "2.7182818           "));
  ((txt "%#-20.7E"), [(JRef (VDouble 4613303445314885481) (txt "java.lang.Double") 1)], (txt "2.7182818E+00       "));
  ((txt "%#-20.7f"), [(JRef (VDouble 4599405781057128579) (txt "java.lang.Double") 1)], (txt "0.3183099           "));
  ((txt "%#-20.7E"), [(JRef (VDouble 4599405781057128579) (txt "java.lang.Double") 1)], (txt "3.1830989E-01       "));
  ((txt "%#-20.7f"), [(JRef (VDouble 4600298746774613816) (txt "java.lang.Double") 1)], (txt "0.3678794           "));
  ((txt "%#-20.7E"), [(JRef (VDouble 4600298746774613816) (txt "java.lang.Double") 1)], (txt "3.6787944E-01       "));
  ((txt "%#-20.7f"), [(JRef (VDouble 9221120237041090560) (txt "java.lang.Double") 1)], (txt "NaN                 "));
  ((txt "%#-20.7E"), [(JRef (VDouble 9221120237041090560) (txt "java.lang.Double") 1)], (txt "NAN                 "));
  ((txt "%#-20.7f"), [(JRef (VDouble (-4503599627370496)) (txt "java.lang.Double") 1)], (txt "-Infinity           "));
  ((txt "%#-20.7E"), [(JRef (VDouble (-4503599627370496)) (txt "java.lang.Double") 1)], (txt "-INFINITY           "));
  ((txt "%#-20.7f"), [(JRef (VDouble 9218868437227405312) (txt "java.lang.Double") 1)], (txt "Infinity            "));
  ((txt "%#-20.7E"), [(JRef (VDouble 9218868437227405312) (txt "java.lang.Double") 1)], (txt "INFINITY            "));
  ((txt "%+020.7f"), [(JRef (VDouble 0) (txt "java.lang.Double") 1)], (txt "+00000000000.0000000"));
  ((txt "%+020.7E"), [(JRef (VDouble 0) (txt "java.lang.Double") 1)], (txt "+0000000.0000000E+00"));
  ((txt "%+020.7f"), [(JRef (VDouble 4607182418800017408) (txt "java.lang.Double") 1)], (txt "+00000000001.0000000"));
  ((txt "%+020.7E"), [(JRef (VDouble 4607182418800017408) (txt "java.lang.Double") 1)], (txt "+0000001.0000000E+00"));
  ((txt "%+020.7f"), [(JRef (VDouble (-4616189618054758400)) (txt "java.lang.Double") 1)], (txt "-00000000001.0000000"));
  ((txt "%+020.7E"), [(JRef (VDouble (-4616189618054758400)) (txt "java.lang.Double") 1)], (txt "-0000001.0000000E+00"));
  ((txt "%+020.7f"), [(JRef (VDouble 4638355772470722560) (txt "java.lang.Double") 1)], (txt "+00000000123.0000000"));
  ((txt "%+020.7E"), [(JRef (VDouble 4638355772470722560) (txt "java.lang.Double") 1)], (txt "+0000001.2300000E+02"));
  ((txt "%+020.7f"), [(JRef (VDouble (-4585016264384053248)) (txt "java.lang.Double") 1)], (txt "-00000000123.0000000"));
  ((txt "%+020.7E"), [(JRef (VDouble (-4585016264384053248)) (txt "java.lang.Double") 1)], (txt "-0000001.2300000E+02"));
  ((txt "%+020.7f"), [(JRef (VDouble 4728057454347157504) (txt "java.lang.Double") 1)], (txt "+00123456789.0000000"));
  ((txt "%+020.7E"), [(JRef (VDouble 4728057454347157504) (txt "java.lang.Double") 1)], (txt "+0000001.2345679E+08"));
  ((txt "%+020.7f"), [(JRef (VDouble (-4495314582507618304)) (txt "java.lang.Double") 1)], (txt "-00123456789.0000000"));
  ((txt "%+020.7E"), [(JRef (VDouble (-4495314582507618304)) (txt "java.lang.Double") 1)], (txt "-0000001.2345679E+08"));
  ((txt "%+020.7f"), [(JRef (VDouble 5183643170566569984) (txt "java.lang.Double") 1)], (txt "+340282346638528860000000000000000000000.0000000"));
  ((txt "%+020.7E"), [(JRef (VDouble 5183643170566569984) (txt "java.lang.Double") 1)], (txt "+0000003.4028235E+38"));
  ((txt "%+020.7f"), [(JRef (VDouble 3936146074321813504) (txt "java.lang.Double") 1)], (txt "+00000000000.0000000"));
  ((txt "%+020.7E"), [(JRef (VDouble 3936146074321813504) (txt "java.lang.Double") 1)], (txt "+0000001.4012985E-45"));
  ((txt "%+020.7f"), [(JRef (VDouble 9218868437227405311) (txt "java.lang.Double") 1)], (txt "+179769313486231570000000000000000000000000000000000000000000000000000000000000000000000000000000000000000000000000000000000000000000000000000000000000000000000000000000000000000000000000000000000000000000000000000000000000000000000000000000000000000000000000000000000000000000000000000000000000000000000000000.0000000"));
  ((txt "%+020.7E"), [(JRef (VDouble 9218868437227405311) (txt "java.lang.Double") 1)], (txt "+000001.7976931E+308"));
  ((txt "%+020.7f"), [(JRef (VDouble 1) (txt "java.lang.Double") 1)], (txt "+00000000000.0000000"));
  ((txt "%+020.7E"), [(JRef (VDouble 1) (txt "java.lang.Double") 1)], (txt "+000004.9000000E-324"));
  ((txt "%+020.7f"), [(JRef (VDouble 4614256656552045848) (txt "java.lang.Double") 1)], (txt "+00000000003.1415927"));
  ((txt "%+020.7E"), [(JRef (VDouble 4614256656552045848) (txt "java.lang.Double") 1)], (txt "+0000003.1415927E+00"));
  ((txt "%+020.7f"), [(JRef (VDouble 4613303445314885481) (txt "java.lang.Double") 1)], (txt "+00000000002.7182818"));
  ((txt "%+020.7E"), [(JRef (VDouble 4613303445314885481) (txt "java.lang.Double") 1)], (txt "+0000002.7182818E+00"));
  ((txt "%+020.7f"), [(JRef (VDouble 4599405781057128579) (txt "java.lang.Double") 1)], (txt "+00000000000.3183099"));
  ((txt "%+020.7E"), [(JRef (VDouble 4599405781057128579) (txt "java.lang.Double") 1)], (txt "+0000003.1830989E-01"));
  ((txt "%+020.7f"), [(JRef (VDouble 4600298746774613816) (txt "java.lang.Double") 1)], (txt "+00000000000.3678794"));
  ((txt "%+020.7E"), [(JRef (VDouble 4600298746774613816) (txt "java.lang.Double") 1)], (txt "+0000003.6787944E-01"));
  ((txt "%+020.7f"), [(JRef (VDouble 9221120237041090560) (txt "java.lang.Double") 1)], (txt "                 NaN"));
  ((txt "%+020.7E"), [(JRef (VDouble 9221120237041090560) (txt "java.lang.Double") 1)], (txt "                 NAN"));
  ((txt "%+020.7f"), [(JRef (VDouble (-4503599627370496)) (txt "java.lang.Double") 1)], (txt "           -Infinity"));
  ((txt "%+020.7E"), [(JRef (VDouble (-4503599627370496)) (txt "java.lang.Double") 1)], (txt "           -INFINITY"));
  ((txt "%+020.7f"), [(JRef (VDouble 9218868437227405312) (txt "java.lang.Double") 1)], (txt "           +Infinity"));
  ((txt "%+020.7E"), [(JRef (VDouble 9218868437227405312) (txt "java.lang.Double") 1)], (txt "           +INFINITY"));
  ((txt "%+8.3g"), [(JRef (VDouble 0) (txt "java.lang.Double") 1)], (txt "      +0"));
  ((txt "%+8.3g"), [(JRef (VDouble 4607182418800017408) (txt "java.lang.Double") 1)], (txt "      +1"));
  ((txt "%+8.3g"), [(JRef (VDouble (-4616189618054758400)) (txt "java.lang.Double") 1)], (txt "      -1"));
  ((txt "%+8.3g"), [(JRef (VDouble 4638355772470722560) (txt "java.lang.Double") 1)], (txt "    +123"));
  ((txt "%+8.3g"), [(JRef (VDouble (-4585016264384053248)) (txt "java.lang.Double") 1)], (txt "    -123"));
  ((txt "%+8.3g"), [(JRef (VDouble 4728057454347157504) (txt "java.lang.Double") 1)], (txt "+1.23e+08"));
  ((txt "%+8.3g"), [(JRef (VDouble (-4495314582507618304)) (txt "java.lang.Double") 1)], (txt "-1.23e+08"));
  ((txt "%+8.3g"), [(JRef (VDouble 5183643170566569984) (txt "java.lang.Double") 1)], (txt "+3.4e+38"));
  ((txt "%+8.3g"), [(JRef (VDouble 3936146074321813504) (txt "java.lang.Double") 1)], (txt "+1.4e-45"));
  ((txt "%+8.3g"), [(JRef (VDouble 9218868437227405311) (txt "java.lang.Double") 1)], (txt "+1.8e+308"));
  ((txt "%+8.3g"), [(JRef (VDouble 1) (txt "java.lang.Double") 1)], (txt "+4.9e-324"));
  ((txt "%+8.3g"), [(JRef (VDouble 4614256656552045848) (txt "java.lang.Double") 1)], (txt "   +3.14"));
  ((txt "%+8.3g"), [(JRef (VDouble 4613303445314885481) (txt "java.lang.Double") 1)], (txt "   +2.72"));
  ((txt "%+8.3g"), [(JRef (VDouble 9221120237041090560) (txt "java.lang.Double") 1)], (txt "     NaN"));
  ((txt "%+8.3g"), [(JRef (VDouble (-4503599627370496)) (txt "java.lang.Double") 1)], (txt "-Infinity"));
  ((txt "%+8.3g"), [(JRef (VDouble 9218868437227405312) (txt "java.lang.Double") 1)], (txt "+Infinity"));
  ((txt "%.8A"), [(JRef (VDouble 0) (txt "java.lang.Double") 1)], (txt "0X0.00000000P+0"));
  ((txt "%.8A"), [(JRef (VDouble 4607182418800017408) (txt "java.lang.Double") 1)], (txt "0X1.00000000P+0"));
  ((txt "%.8A"), [(JRef (VDouble (-4616189618054758400)) (txt "java.lang.Double") 1)], (txt "-0X1.00000000P+0"));
  ((txt "%.8A"), [(JRef (VDouble 4638355772470722560) (txt "java.lang.Double") 1)], (txt "0X1.EC000000P+6"));
  ((txt "%.8A"), [(JRef (VDouble (-4585016264384053248)) (txt "java.lang.Double") 1)], (txt "-0X1.EC000000P+6"));
  ((txt "%.8A"), [(JRef (VDouble 4728057454347157504) (txt "java.lang.Double") 1)], (txt "0X1.D6F34540P+26"));
  ((txt "%.8A"), [(JRef (VDouble (-4495314582507618304)) (txt "java.lang.Double") 1)], (txt "-0X1.D6F34540P+26"));
  ((txt "%.8A"), [(JRef (VDouble 5183643170566569984) (txt "java.lang.Double") 1)], (txt "0X1.FFFFFE00P+127"));
  ((txt "%.8A"), [(JRef (VDouble 3936146074321813504) (txt "java.lang.Double") 1)], (txt "0X1.00000000P-149"));
  ((txt "%.8A"), [(JRef (VDouble 9218868437227405311) (txt "java.lang.Double") 1)], (txt "0X1.00000000P+1024"));
  ((txt "%.8A"), [(JRef (VDouble 1) (txt "java.lang.Double") 1)], (txt "0X1.00000000P-1074"));
  ((txt "%.8A"), [(JRef (VDouble 4614256656552045848) (txt "java.lang.Double") 1)], (txt "0X1.921FB544P+1"));
  ((txt "%.8A"), [(JRef (VDouble 4613303445314885481) (txt "java.lang.Double") 1)], (txt "0X1.5BF0A8B1P+1"));
  ((txt "%.8A"), [(JRef (VDouble 4599405781057128579) (txt "java.lang.Double") 1)], (txt "0X1.45F306DDP-2"));
  ((txt "%.8A"), [(JRef (VDouble 4600298746774613816) (txt "java.lang.Double") 1)], (txt "0X1.78B56363P-2"));
  ((txt "%.8A"), [(JRef (VDouble 9221120237041090560) (txt "java.lang.Double") 1)], (txt "NAN"));
  ((txt "%.8A"), [(JRef (VDouble (-4503599627370496)) (txt "java.lang.Double") 1)], (txt "-INFINITY"));
  ((txt "%.8A"), [(JRef (VDouble 9218868437227405312) (txt "java.lang.Double") 1)], (txt "INFINITY"))].
Example seqformatter_pass : filter (fun v => negb (passes v)) seqformatter = [].
Proof. vm_compute. reflexivity. Qed.

(** MoreSeqFormatterTest.java *)
Definition moreseq : list vector := [
  ((txt "%d"), [(JRef (VLong 123) (txt "java.lang.Long") 1)], (txt "123"));
  ((txt "%10d"), [(JRef (VLong 123) (txt "java.lang.Long") 1)], (txt "       123"));
  ((txt "%-10d"), [(JRef (VLong 123) (txt "java.lang.Long") 1)], (txt "123       "));
  ((txt "%010d"), [(JRef (VLong 123) (txt "java.lang.Long") 1)], (txt "0000000123"));
  ((txt "%+d"), [(JRef (VLong 123) (txt "java.lang.Long") 1)], (txt "+123"));
  ((txt "% d"), [(JRef (VLong 123) (txt "java.lang.Long") 1)], (txt " 123"));
  ((txt "%d"), [(JRef (VLong (-123)) (txt "java.lang.Long") 1)], (txt "-123"));
  ((txt "%10d"), [(JRef (VLong (-123)) (txt "java.lang.Long") 1)], (txt "      -123"));
  ((txt "%010d"), [(JRef (VLong (-123)) (txt "java.lang.Long") 1)], (txt "-000000123"));
  ((txt "%.5d"), [(JRef (VLong 123) (txt "java.lang.Long") 1)], (txt "00123"));
  ((txt "%8.5d"), [(JRef (VLong 123) (txt "java.lang.Long") 1)], (txt "   00123"));
  ((txt "%-8.5d"), [(JRef (VLong 123) (txt "java.lang.Long") 1)], (txt "00123   "));
  ((txt "%08.5d"), [(JRef (VLong 123) (txt "java.lang.Long") 1)], (txt "   00123"));
  ((txt "%.0d"), [(JRef (VLong 0) (txt "java.lang.Long") 1)], (txt ""));
  ((txt "%5.0d"), [(JRef (VLong 0) (txt "java.lang.Long") 1)], (txt "     "));
  ((txt "%o"), [(JRef (VLong 123) (txt "java.lang.Long") 1)], (txt "173"));
  ((txt "%#o"), [(JRef (VLong 123) (txt "java.lang.Long") 1)], (txt "0173"));
  ((txt "%#o"), [(JRef (VLong 0) (txt "java.lang.Long") 1)], (txt "0"));
  ((txt "%10o"), [(JRef (VLong 123) (txt "java.lang.Long") 1)], (txt "       173"));
  ((txt "%-10o"), [(JRef (VLong 123) (txt "java.lang.Long") 1)], (txt "173       "));
  ((txt "%010o"), [(JRef (VLong 123) (txt "java.lang.Long") 1)], (txt "0000000173"));
  ((txt "%#010o"), [(JRef (VLong 123) (txt "java.lang.Long") 1)], (txt "0000000173"));
  ((txt "%.5o"), [(JRef (VLong 123) (txt "java.lang.Long") 1)], (txt "00173"));
  ((txt "%#.5o"), [(JRef (VLong 123) (txt "java.lang.Long") 1)], (txt "00173"));
  ((txt "%x"), [(JRef (VLong 255) (txt "java.lang.Long") 1)], (txt "ff"));
  ((txt "%X"), [(JRef (VLong 255) (txt "java.lang.Long") 1)], (txt "FF"));
  ((txt "%#x"), [(JRef (VLong 255) (txt "java.lang.Long") 1)], (txt "0xff"));
  ((txt "%#X"), [(JRef (VLong 255) (txt "java.lang.Long") 1)], (txt "0XFF"));
  ((txt "%#x"), [(JRef (VLong 0) (txt "java.lang.Long") 1)], (txt "0"));
  ((txt "%#X"), [(JRef (VLong 0) (txt "java.lang.Long") 1)], (txt "0"));
  ((txt "%10x"), [(JRef (VLong 255) (txt "java.lang.Long") 1)], (txt "        ff"));
  ((txt "%010x"), [(JRef (VLong 255) (txt "java.lang.Long") 1)], (txt "00000000ff"));
  ((txt "%#010x"), [(JRef (VLong 255) (txt "java.lang.Long") 1)], (txt "0x000000ff"));
  ((txt "%u"), [(JRef (VLong 123) (txt "java.lang.Long") 1)], (txt "123"));
  ((txt "%u"), [(JRef (VLong (-1)) (txt "java.lang.Long") 1)], (txt "18446744073709551615"));
  ((txt "%25u"), [(JRef (VLong (-1)) (txt "java.lang.Long") 1)], (txt "     18446744073709551615"));
  ((txt "%f"), [(JRef (VDouble 4608218246714312622) (txt "java.lang.Double") 1)], (txt "1.230000"));
  ((txt "%.2f"), [(JRef (VDouble 4608236261112822104) (txt "java.lang.Double") 1)], (txt "1.23"));
  ((txt "%.2f"), [(JRef (VDouble 4608240764712449475) (txt "java.lang.Double") 1)], (txt "1.24"));
  ((txt "%10.2f"), [(JRef (VDouble 4608240764712449475) (txt "java.lang.Double") 1)], (txt "      1.24"));
  ((txt "%-10.2f"), [(JRef (VDouble 4608240764712449475) (txt "java.lang.Double") 1)], (txt "1.24      "));
  ((txt "%010.2f"), [(JRef (VDouble 4608240764712449475) (txt "java.lang.Double") 1)], (txt "0000001.24"));
  ((txt "%+f"), [(JRef (VDouble 4608218246714312622) (txt "java.lang.Double") 1)], (txt "+1.230000"));
  ((txt "% f"), [(JRef (VDouble 4608218246714312622) (txt "java.lang.Double") 1)], (txt " 1.230000"));
  ((txt "%#.0f"), [(JRef (VDouble 4638355772470722560) (txt "java.lang.Double") 1)], (txt "123."));
  ((txt "%F"), [(JRef (VDouble 9221120237041090560) (txt "java.lang.Double") 1)], (txt "NAN"));
  ((txt "%F"), [(JRef (VDouble 9218868437227405312) (txt "java.lang.Double") 1)], (txt "INFINITY"));
  ((txt "%+F"), [(JRef (VDouble 9218868437227405312) (txt "java.lang.Double") 1)], (txt "+INFINITY"));
  ((txt "%e"), [(JRef (VDouble 4638387860618067575) (txt "java.lang.Double") 1)], (txt "1.234560e+02"));
  ((txt "%.2e"), [(JRef (VDouble 4638387860618067575) (txt "java.lang.Double") 1)], (txt "1.23e+02"));
  ((txt "%E"), [(JRef (VDouble 4638387860618067575) (txt "java.lang.Double") 1)], (txt "1.234560E+02"));
  ((txt "%+12.2E"), [(JRef (VDouble 4638387860618067575) (txt "java.lang.Double") 1)], (txt "   +1.23E+02"));
  ((txt "%g"), [(JRef (VDouble 4638387860618067575) (txt "java.lang.Double") 1)], (txt "123.456"));
  ((txt "%g"), [(JRef (VDouble 4698053236609777664) (txt "java.lang.Double") 1)], (txt "1.23457e+06"));
  ((txt "%.2g"), [(JRef (VDouble 4638387860618067575) (txt "java.lang.Double") 1)], (txt "1.2e+02"));
  ((txt "%#g"), [(JRef (VDouble 4638355772470722560) (txt "java.lang.Double") 1)], (txt "123.000"));
  ((txt "%g"), [(JRef (VDouble 0) (txt "java.lang.Double") 1)], (txt "0"));
  ((txt "%a"), [(JRef (VDouble 4621819117588971520) (txt "java.lang.Double") 1)], (txt "0x1.4p+3"));
  ((txt "%A"), [(JRef (VDouble (-4600145544382251008)) (txt "java.lang.Double") 1)], (txt "-0X1.9P+3"));
  ((txt "%5c"), [(JRef (VChar 97) (txt "java.lang.Character") 1)], (txt "    a"));
  ((txt "%-5c"), [(JRef (VChar 97) (txt "java.lang.Character") 1)], (txt "a    "));
  ((txt "%.3s"), [(JRef (VStr (txt "hello")) (txt "java.lang.String") 1)], (txt "hel"));
  ((txt "%7s"), [(JRef (VStr (txt "hello")) (txt "java.lang.String") 1)], (txt "  hello"));
  ((txt "%s"), [JNull], (txt "null"));
  ((txt "%S"), [(JRef (VStr (txt "hello")) (txt "java.lang.String") 1)], (txt "HELLO"))].
Example moreseq_pass : filter (fun v => negb (passes v)) moreseq = [].
Proof. vm_compute. reflexivity. Qed.

(** SeqFormatterGATest.java *)
Definition seq_ga : list vector := [
  ((txt "%g"), [(JRef (VDouble 4608238783128613432) (txt "java.lang.Double") 1)], (txt "1.23456"));
  ((txt "%g"), [(JRef (VDouble 4683220244930494464) (txt "java.lang.Double") 1)], (txt "123456"));
  ((txt "%g"), [(JRef (VDouble 4698053206545006592) (txt "java.lang.Double") 1)], (txt "1.23456e+06"));
  ((txt "%g"), [(JRef (VDouble 4548686746489558237) (txt "java.lang.Double") 1)], (txt "0.000123456"));
  ((txt "%g"), [(JRef (VDouble 4533405181463712916) (txt "java.lang.Double") 1)], (txt "1.23456e-05"));
  ((txt "%.2g"), [(JRef (VDouble 4608238512912635789) (txt "java.lang.Double") 1)], (txt "1.2"));
  ((txt "%.3g"), [(JRef (VDouble 4638387438405602509) (txt "java.lang.Double") 1)], (txt "123"));
  ((txt "%.2g"), [(JRef (VDouble 4668012349850910720) (txt "java.lang.Double") 1)], (txt "1.2e+04"));
  ((txt "%.2g"), [(JRef (VDouble 4563335949288690562) (txt "java.lang.Double") 1)], (txt "0.0012"));
  ((txt "%.0g"), [(JRef (VDouble 4608236261112822104) (txt "java.lang.Double") 1)], (txt "1"));
  ((txt "%.0g"), [(JRef (VDouble 4698053236609777664) (txt "java.lang.Double") 1)], (txt "1e+06"));
  ((txt "%.4g"), [(JRef (VDouble 4608083138725491507) (txt "java.lang.Double") 1)], (txt "1.2"));
  ((txt "%.4g"), [(JRef (VDouble 4607182418800017408) (txt "java.lang.Double") 1)], (txt "1"));
  ((txt "%g"), [(JRef (VDouble 4608218246714312622) (txt "java.lang.Double") 1)], (txt "1.23"));
  ((txt "%g"), [(JRef (VDouble 0) (txt "java.lang.Double") 1)], (txt "0"));
  ((txt "%#g"), [(JRef (VDouble 4608083138725491507) (txt "java.lang.Double") 1)], (txt "1.20000"));
  ((txt "%#.4g"), [(JRef (VDouble 4608083138725491507) (txt "java.lang.Double") 1)], (txt "1.200"));
  ((txt "%#.1g"), [(JRef (VDouble 4607182418800017408) (txt "java.lang.Double") 1)], (txt "1."));
  ((txt "%#.6g"), [(JRef (VDouble 4607182418800017408) (txt "java.lang.Double") 1)], (txt "1.00000"));
  ((txt "%#.4g"), [(JRef (VDouble 4668012349850910720) (txt "java.lang.Double") 1)], (txt "1.235e+04"));
  ((txt "%.3g"), [(JRef (VDouble 4608240764712449475) (txt "java.lang.Double") 1)], (txt "1.24"));
  ((txt "%.3g"), [(JRef (VDouble 4621812362189530464) (txt "java.lang.Double") 1)], (txt "9.99"));
  ((txt "%.1g"), [(JRef (VDouble 4696837138094751744) (txt "java.lang.Double") 1)], (txt "1e+06"));
  ((txt "%.5g"), [(JRef (VDouble 4653142004841054208) (txt "java.lang.Double") 1)], (txt "1234"));
  ((txt "%.5g"), [(JRef (VDouble 4668012349850910720) (txt "java.lang.Double") 1)], (txt "12345"));
  ((txt "%.5g"), [(JRef (VDouble 4683219832613634048) (txt "java.lang.Double") 1)], (txt "1.2345e+05"));
  ((txt "%.5g"), [(JRef (VDouble 4562254508917369340) (txt "java.lang.Double") 1)], (txt "0.001"));
  ((txt "%.5g"), [(JRef (VDouble 4547007122018943789) (txt "java.lang.Double") 1)], (txt "0.0001"));
  ((txt "%.5g"), [(JRef (VDouble 4532020583610935537) (txt "java.lang.Double") 1)], (txt "1e-05"));
  ((txt "%+7.3g"), [(JRef (VDouble 4608218246714312622) (txt "java.lang.Double") 1)], (txt "  +1.23"));
  ((txt "% 7.3g"), [(JRef (VDouble 4608218246714312622) (txt "java.lang.Double") 1)], (txt "   1.23"));
  ((txt "%-7.3g"), [(JRef (VDouble (-4615153790140463186)) (txt "java.lang.Double") 1)], (txt "-1.23  "));
  ((txt "%+07.3g"), [(JRef (VDouble 4608218246714312622) (txt "java.lang.Double") 1)], (txt "+001.23"));
  ((txt "%.0a"), [(JRef (VDouble 4503599627370496) (txt "java.lang.Double") 1)], (txt "0x1.0p-1022"));
  ((txt "%.2a"), [(JRef (VDouble 4638387860618067575) (txt "java.lang.Double") 1)], (txt "0x1.eep+6"));
  ((txt "%.8a"), [(JRef (VDouble 4638387860618067575) (txt "java.lang.Double") 1)], (txt "0x1.edd2f1aap+6"));
  ((txt "%#.1a"), [(JRef (VDouble 4609434218613702656) (txt "java.lang.Double") 1)], (txt "0x1.8p+0"));
  ((txt "%#.0a"), [(JRef (VDouble 4611686018427387904) (txt "java.lang.Double") 1)], (txt "0x1.0p+1"));
  ((txt "% 10.2a"), [(JRef (VDouble 4609434218613702656) (txt "java.lang.Double") 1)], (txt " 0x1.80p+0"));
  ((txt "%+10.2a"), [(JRef (VDouble 4609434218613702656) (txt "java.lang.Double") 1)], (txt "+0x1.80p+0"));
  ((txt "%+011.2a"), [(JRef (VDouble 4609434218613702656) (txt "java.lang.Double") 1)], (txt "+0x01.80p+0"));
  ((txt "%011.2a"), [(JRef (VDouble (-4613937818241073152)) (txt "java.lang.Double") 1)], (txt "-0x01.80p+0"));
  ((txt "%011.2a"), [(JRef (VDouble 4609434218613702656) (txt "java.lang.Double") 1)], (txt "0x001.80p+0"));
  ((txt "%-011.2a"), [(JRef (VDouble (-4613937818241073152)) (txt "java.lang.Double") 1)], (txt "-0x1.80p+0 "));
  ((txt "%-+011.2a"), [(JRef (VDouble 4609434218613702656) (txt "java.lang.Double") 1)], (txt "+0x1.80p+0 "));
  ((txt "%.0a"), [(JRef (VDouble 1) (txt "java.lang.Double") 1)], (txt "0x1.0p-1074"));
  ((txt "%.1a"), [(JRef (VDouble 1) (txt "java.lang.Double") 1)], (txt "0x1.0p-1074"));
  ((txt "%.1a"), [(JRef (VDouble 0) (txt "java.lang.Double") 1)], (txt "0x0.0p+0"));
  ((txt "%.1a"), [(JRef (VDouble (-9223372036854775808)) (txt "java.lang.Double") 1)], (txt "-0x0.0p+0"));
  ((txt "% 12.3a"), [(JRef (VDouble 0) (txt "java.lang.Double") 1)], (txt "  0x0.000p+0"));
  ((txt "%a"), [(JRef (VDouble 9218868437227405312) (txt "java.lang.Double") 1)], (txt "Infinity"));
  ((txt "%a"), [(JRef (VDouble (-4503599627370496)) (txt "java.lang.Double") 1)], (txt "-Infinity"));
  ((txt "%+15a"), [(JRef (VDouble 9218868437227405312) (txt "java.lang.Double") 1)], (txt "      +Infinity"));
  ((txt "%a"), [(JRef (VDouble 9221120237041090560) (txt "java.lang.Double") 1)], (txt "NaN"));
  ((txt "%15a"), [(JRef (VDouble 9221120237041090560) (txt "java.lang.Double") 1)], (txt "            NaN"))].
Example seq_ga_pass : filter (fun v => negb (passes v)) seq_ga = [].
Proof. vm_compute. reflexivity. Qed.

(** FastPrintfTest.java testHexDecimalAlginWithJDK (java.util.Formatter written out; it prints no plus in the exponent) *)
Definition hex_like_jdk : list vector := [
  ((txt "%a"), [(JRef (VDouble 0) (txt "java.lang.Double") 1)], (txt "0x0.0p+0"));
  ((txt "%a"), [(JRef (VDouble (-9223372036854775808)) (txt "java.lang.Double") 1)], (txt "-0x0.0p+0"));
  ((txt "%a"), [(JRef (VDouble 4607182418800017408) (txt "java.lang.Double") 1)], (txt "0x1.0p+0"));
  ((txt "%a"), [(JRef (VDouble (-4616189618054758400)) (txt "java.lang.Double") 1)], (txt "-0x1.0p+0"));
  ((txt "%a"), [(JRef (VDouble 4614256656552045848) (txt "java.lang.Double") 1)], (txt "0x1.921fb54442d18p+1"));
  ((txt "%a"), [(JRef (VDouble (-4609115380302729960)) (txt "java.lang.Double") 1)], (txt "-0x1.921fb54442d18p+1"));
  ((txt "%a"), [(JRef (VDouble 4458835772027226175) (txt "java.lang.Double") 1)], (txt "0x1.0f782bf7cc83fp-33"));
  ((txt "%a"), [(JRef (VDouble (-4764536264827549633)) (txt "java.lang.Double") 1)], (txt "-0x1.0f782bf7cc83fp-33"));
  ((txt "%a"), [(JRef (VDouble 4757769942235873280) (txt "java.lang.Double") 1)], (txt "0x1.6fe8e02p+33"));
  ((txt "%a"), [(JRef (VDouble (-4465602094618902528)) (txt "java.lang.Double") 1)], (txt "-0x1.6fe8e02p+33"));
  ((txt "%a"), [(JRef (VDouble 3936146074321813504) (txt "java.lang.Double") 1)], (txt "0x1.0p-149"));
  ((txt "%a"), [(JRef (VDouble (-4039728866288205824)) (txt "java.lang.Double") 1)], (txt "-0x1.fffffep+127"));
  ((txt "%a"), [(JRef (VDouble 9218868437227405311) (txt "java.lang.Double") 1)], (txt "0x1.fffffffffffffp+1023"));
  ((txt "%a"), [(JRef (VDouble (-4503599627370497)) (txt "java.lang.Double") 1)], (txt "-0x1.fffffffffffffp+1023"));
  ((txt "%a"), [(JRef (VDouble 1) (txt "java.lang.Double") 1)], (txt "0x0.0000000000001p-1022"));
  ((txt "%a"), [(JRef (VDouble (-9223372036854775807)) (txt "java.lang.Double") 1)], (txt "-0x0.0000000000001p-1022"));
  ((txt "%a"), [(JRef (VDouble 9218868437227405312) (txt "java.lang.Double") 1)], (txt "Infinity"));
  ((txt "%a"), [(JRef (VDouble (-4503599627370496)) (txt "java.lang.Double") 1)], (txt "-Infinity"));
  ((txt "%a"), [(JRef (VDouble 9221120237041090560) (txt "java.lang.Double") 1)], (txt "NaN"));
  ((txt "%A"), [(JRef (VDouble 0) (txt "java.lang.Double") 1)], (txt "0X0.0P+0"));
  ((txt "%A"), [(JRef (VDouble (-9223372036854775808)) (txt "java.lang.Double") 1)], (txt "-0X0.0P+0"));
  ((txt "%A"), [(JRef (VDouble 4607182418800017408) (txt "java.lang.Double") 1)], (txt "0X1.0P+0"));
  ((txt "%A"), [(JRef (VDouble (-4616189618054758400)) (txt "java.lang.Double") 1)], (txt "-0X1.0P+0"));
  ((txt "%A"), [(JRef (VDouble 4614256656552045848) (txt "java.lang.Double") 1)], (txt "0X1.921FB54442D18P+1"));
  ((txt "%A"), [(JRef (VDouble (-4609115380302729960)) (txt "java.lang.Double") 1)], (txt "-0X1.921FB54442D18P+1"));
  ((txt "%A"), [(JRef (VDouble 4458835772027226175) (txt "java.lang.Double") 1)], (txt "0X1.0F782BF7CC83FP-33"));
  ((txt "%A"), [(JRef (VDouble (-4764536264827549633)) (txt "java.lang.Double") 1)], (txt "-0X1.0F782BF7CC83FP-33"));
  ((txt "%A"), [(JRef (VDouble 4757769942235873280) (txt "java.lang.Double") 1)], (txt "0X1.6FE8E02P+33"));
  ((txt "%A"), [(JRef (VDouble (-4465602094618902528)) (txt "java.lang.Double") 1)], (txt "-0X1.6FE8E02P+33"));
  ((txt "%A"), [(JRef (VDouble 3936146074321813504) (txt "java.lang.Double") 1)], (txt "0X1.0P-149"));
  ((txt "%A"), [(JRef (VDouble (-4039728866288205824)) (txt "java.lang.Double") 1)], (txt "-0X1.FFFFFEP+127"));
  ((txt "%A"), [(JRef (VDouble 9218868437227405311) (txt "java.lang.Double") 1)], (txt "0X1.FFFFFFFFFFFFFP+1023"));
  ((txt "%A"), [(JRef (VDouble (-4503599627370497)) (txt "java.lang.Double") 1)], (txt "-0X1.FFFFFFFFFFFFFP+1023"));
  ((txt "%A"), [(JRef (VDouble 1) (txt "java.lang.Double") 1)], (txt "0X0.0000000000001P-1022"));
  ((txt "%A"), [(JRef (VDouble (-9223372036854775807)) (txt "java.lang.Double") 1)], (txt "-0X0.0000000000001P-1022"));
  ((txt "%A"), [(JRef (VDouble 9218868437227405312) (txt "java.lang.Double") 1)], (txt "INFINITY"));
  ((txt "%A"), [(JRef (VDouble (-4503599627370496)) (txt "java.lang.Double") 1)], (txt "-INFINITY"));
  ((txt "%A"), [(JRef (VDouble 9221120237041090560) (txt "java.lang.Double") 1)], (txt "NAN"));
  ((txt "%#a"), [(JRef (VDouble 0) (txt "java.lang.Double") 1)], (txt "0x0.0p+0"));
  ((txt "%#a"), [(JRef (VDouble (-9223372036854775808)) (txt "java.lang.Double") 1)], (txt "-0x0.0p+0"));
  ((txt "%#a"), [(JRef (VDouble 4607182418800017408) (txt "java.lang.Double") 1)], (txt "0x1.0p+0"));
  ((txt "%#a"), [(JRef (VDouble (-4616189618054758400)) (txt "java.lang.Double") 1)], (txt "-0x1.0p+0"));
  ((txt "%#a"), [(JRef (VDouble 4614256656552045848) (txt "java.lang.Double") 1)], (txt "0x1.921fb54442d18p+1"));
  ((txt "%#a"), [(JRef (VDouble (-4609115380302729960)) (txt "java.lang.Double") 1)], (txt "-0x1.921fb54442d18p+1"));
  ((txt "%#a"), [(JRef (VDouble 4458835772027226175) (txt "java.lang.Double") 1)], (txt "0x1.0f782bf7cc83fp-33"));
  ((txt "%#a"), [(JRef (VDouble (-4764536264827549633)) (txt "java.lang.Double") 1)], (txt "-0x1.0f782bf7cc83fp-33"));
  ((txt "%#a"), [(JRef (VDouble 4757769942235873280) (txt "java.lang.Double") 1)], (txt "0x1.6fe8e02p+33"));
  ((txt "%#a"), [(JRef (VDouble (-4465602094618902528)) (txt "java.lang.Double") 1)], (txt "-0x1.6fe8e02p+33"));
  ((txt "%#a"), [(JRef (VDouble 3936146074321813504) (txt "java.lang.Double") 1)], (txt "0x1.0p-149"));
  ((txt "%#a"), [(JRef (VDouble (-4039728866288205824)) (txt "java.lang.Double") 1)], (txt "-0x1.fffffep+127"));
  ((txt "%#a"), [(JRef (VDouble 9218868437227405311) (txt "java.lang.Double") 1)], (txt "0x1.fffffffffffffp+1023"));
  ((txt "%#a"), [(JRef (VDouble (-4503599627370497)) (txt "java.lang.Double") 1)], (txt "-0x1.fffffffffffffp+1023"));
  ((txt "%#a"), [(JRef (VDouble 1) (txt "java.lang.Double") 1)], (txt "0x0.0000000000001p-1022"));
  ((txt "%#a"), [(JRef (VDouble (-9223372036854775807)) (txt "java.lang.Double") 1)], (txt "-0x0.0000000000001p-1022"));
  ((txt "%#a"), [(JRef (VDouble 9218868437227405312) (txt "java.lang.Double") 1)], (txt "Infinity"));
  ((txt "%#a"), [(JRef (VDouble (-4503599627370496)) (txt "java.lang.Double") 1)], (txt "-Infinity"));
  ((txt "%#a"), [(JRef (VDouble 9221120237041090560) (txt "java.lang.Double") 1)], (txt "NaN"));
  ((txt "%#A"), [(JRef (VDouble 0) (txt "java.lang.Double") 1)], (txt "0X0.0P+0"));
  ((txt "%#A"), [(JRef (VDouble (-9223372036854775808)) (txt "java.lang.Double") 1)], (txt "-0X0.0P+0"));
  ((txt "%#A"), [(JRef (VDouble 4607182418800017408) (txt "java.lang.Double") 1)], (txt "0X1.0P+0"));
  ((txt "%#A"), [(JRef (VDouble (-4616189618054758400)) (txt "java.lang.Double") 1)], (txt "-0X1.0P+0"));
  ((txt "%#A"), [(JRef (VDouble 4614256656552045848) (txt "java.lang.Double") 1)], (txt "0X1.921FB54442D18P+1"));
  ((txt "%#A"), [(JRef (VDouble (-4609115380302729960)) (txt "java.lang.Double") 1)], (txt "-0X1.921FB54442D18P+1"));
  ((txt "%#A"), [(JRef (VDouble 4458835772027226175) (txt "java.lang.Double") 1)], (txt "0X1.0F782BF7CC83FP-33"));
  ((txt "%#A"), [(JRef (VDouble (-4764536264827549633)) (txt "java.lang.Double") 1)], (txt "-0X1.0F782BF7CC83FP-33"));
  ((txt "%#A"), [(JRef (VDouble 4757769942235873280) (txt "java.lang.Double") 1)], (txt "0X1.6FE8E02P+33"));
  ((txt "%#A"), [(JRef (VDouble (-4465602094618902528)) (txt "java.lang.Double") 1)], (txt "-0X1.6FE8E02P+33"));
  ((txt "%#A"), [(JRef (VDouble 3936146074321813504) (txt "java.lang.Double") 1)], (txt "0X1.0P-149"));
  ((txt "%#A"), [(JRef (VDouble (-4039728866288205824)) (txt "java.lang.Double") 1)], (txt "-0X1.FFFFFEP+127"));
  ((txt "%#A"), [(JRef (VDouble 9218868437227405311) (txt "java.lang.Double") 1)], (txt "0X1.FFFFFFFFFFFFFP+1023"));
  ((txt "%#A"), [(JRef (VDouble (-4503599627370497)) (txt "java.lang.Double") 1)], (txt "-0X1.FFFFFFFFFFFFFP+1023"));
  ((txt "%#A"), [(JRef (VDouble 1) (txt "java.lang.Double") 1)], (txt "0X0.0000000000001P-1022"));
  ((txt "%#A"), [(JRef (VDouble (-9223372036854775807)) (txt "java.lang.Double") 1)], (txt "-0X0.0000000000001P-1022"));
  ((txt "%#A"), [(JRef (VDouble 9218868437227405312) (txt "java.lang.Double") 1)], (txt "INFINITY"));
  ((txt "%#A"), [(JRef (VDouble (-4503599627370496)) (txt "java.lang.Double") 1)], (txt "-INFINITY"));
  ((txt "%#A"), [(JRef (VDouble 9221120237041090560) (txt "java.lang.Double") 1)], (txt "NAN"));
  ((txt "%.0a"), [(JRef (VDouble 0) (txt "java.lang.Double") 1)], (txt "0x0.0p+0"));
  ((txt "%.0a"), [(JRef (VDouble (-9223372036854775808)) (txt "java.lang.Double") 1)], (txt "-0x0.0p+0"));
  ((txt "%.0a"), [(JRef (VDouble 4607182418800017408) (txt "java.lang.Double") 1)], (txt "0x1.0p+0"));
  ((txt "%.0a"), [(JRef (VDouble (-4616189618054758400)) (txt "java.lang.Double") 1)], (txt "-0x1.0p+0"));
  ((txt "%.0a"), [(JRef (VDouble 4614256656552045848) (txt "java.lang.Double") 1)], (txt "0x1.9p+1"));
  ((txt "%.0a"), [(JRef (VDouble (-4609115380302729960)) (txt "java.lang.Double") 1)], (txt "-0x1.9p+1"));
  ((txt "%.0a"), [(JRef (VDouble 4458835772027226175) (txt "java.lang.Double") 1)], (txt "0x1.1p-33"));
  ((txt "%.0a"), [(JRef (VDouble (-4764536264827549633)) (txt "java.lang.Double") 1)], (txt "-0x1.1p-33"));
  ((txt "%.0a"), [(JRef (VDouble 4757769942235873280) (txt "java.lang.Double") 1)], (txt "0x1.7p+33"));
  ((txt "%.0a"), [(JRef (VDouble (-4465602094618902528)) (txt "java.lang.Double") 1)], (txt "-0x1.7p+33"));
  ((txt "%.0a"), [(JRef (VDouble 3936146074321813504) (txt "java.lang.Double") 1)], (txt "0x1.0p-149"));
  ((txt "%.0a"), [(JRef (VDouble (-4039728866288205824)) (txt "java.lang.Double") 1)], (txt "-0x1.0p+128"));
  ((txt "%.0a"), [(JRef (VDouble 9218868437227405311) (txt "java.lang.Double") 1)], (txt "0x1.0p+1024"));
  ((txt "%.0a"), [(JRef (VDouble (-4503599627370497)) (txt "java.lang.Double") 1)], (txt "-0x1.0p+1024"));
  ((txt "%.0a"), [(JRef (VDouble 1) (txt "java.lang.Double") 1)], (txt "0x1.0p-1074"));
  ((txt "%.0a"), [(JRef (VDouble (-9223372036854775807)) (txt "java.lang.Double") 1)], (txt "-0x1.0p-1074"));
  ((txt "%.0a"), [(JRef (VDouble 9218868437227405312) (txt "java.lang.Double") 1)], (txt "Infinity"));
  ((txt "%.0a"), [(JRef (VDouble (-4503599627370496)) (txt "java.lang.Double") 1)], (txt "-Infinity"));
  ((txt "%.0a"), [(JRef (VDouble 9221120237041090560) (txt "java.lang.Double") 1)], (txt "NaN"));
  ((txt "%.1a"), [(JRef (VDouble 0) (txt "java.lang.Double") 1)], (txt "0x0.0p+0"));
  ((txt "%.1a"), [(JRef (VDouble (-9223372036854775808)) (txt "java.lang.Double") 1)], (txt "-0x0.0p+0"));
  ((txt "%.1a"), [(JRef (VDouble 4607182418800017408) (txt "java.lang.Double") 1)], (txt "0x1.0p+0"));
  ((txt "%.1a"), [(JRef (VDouble (-4616189618054758400)) (txt "java.lang.Double") 1)], (txt "-0x1.0p+0"));
  ((txt "%.1a"), [(JRef (VDouble 4614256656552045848) (txt "java.lang.Double") 1)], (txt "0x1.9p+1"));
  ((txt "%.1a"), [(JRef (VDouble (-4609115380302729960)) (txt "java.lang.Double") 1)], (txt "-0x1.9p+1"));
  ((txt "%.1a"), [(JRef (VDouble 4458835772027226175) (txt "java.lang.Double") 1)], (txt "0x1.1p-33"));
  ((txt "%.1a"), [(JRef (VDouble (-4764536264827549633)) (txt "java.lang.Double") 1)], (txt "-0x1.1p-33"));
  ((txt "%.1a"), [(JRef (VDouble 4757769942235873280) (txt "java.lang.Double") 1)], (txt "0x1.7p+33"));
  ((txt "%.1a"), [(JRef (VDouble (-4465602094618902528)) (txt "java.lang.Double") 1)], (txt "-0x1.7p+33"));
  ((txt "%.1a"), [(JRef (VDouble 3936146074321813504) (txt "java.lang.Double") 1)], (txt "0x1.0p-149"));
  ((txt "%.1a"), [(JRef (VDouble (-4039728866288205824)) (txt "java.lang.Double") 1)], (txt "-0x1.0p+128"));
  ((txt "%.1a"), [(JRef (VDouble 9218868437227405311) (txt "java.lang.Double") 1)], (txt "0x1.0p+1024"));
  ((txt "%.1a"), [(JRef (VDouble (-4503599627370497)) (txt "java.lang.Double") 1)], (txt "-0x1.0p+1024"));
  ((txt "%.1a"), [(JRef (VDouble 1) (txt "java.lang.Double") 1)], (txt "0x1.0p-1074"));
  ((txt "%.1a"), [(JRef (VDouble (-9223372036854775807)) (txt "java.lang.Double") 1)], (txt "-0x1.0p-1074"));
  ((txt "%.1a"), [(JRef (VDouble 9218868437227405312) (txt "java.lang.Double") 1)], (txt "Infinity"));
  ((txt "%.1a"), [(JRef (VDouble (-4503599627370496)) (txt "java.lang.Double") 1)], (txt "-Infinity"));
  ((txt "%.1a"), [(JRef (VDouble 9221120237041090560) (txt "java.lang.Double") 1)], (txt "NaN"));
  ((txt "%.2a"), [(JRef (VDouble 0) (txt "java.lang.Double") 1)], (txt "0x0.00p+0"));
  ((txt "%.2a"), [(JRef (VDouble (-9223372036854775808)) (txt "java.lang.Double") 1)], (txt "-0x0.00p+0"));
  ((txt "%.2a"), [(JRef (VDouble 4607182418800017408) (txt "java.lang.Double") 1)], (txt "0x1.00p+0"));
  ((txt "%.2a"), [(JRef (VDouble (-4616189618054758400)) (txt "java.lang.Double") 1)], (txt "-0x1.00p+0"));
  ((txt "%.2a"), [(JRef (VDouble 4614256656552045848) (txt "java.lang.Double") 1)], (txt "0x1.92p+1"));
  ((txt "%.2a"), [(JRef (VDouble (-4609115380302729960)) (txt "java.lang.Double") 1)], (txt "-0x1.92p+1"));
  ((txt "%.2a"), [(JRef (VDouble 4458835772027226175) (txt "java.lang.Double") 1)], (txt "0x1.0fp-33"));
  ((txt "%.2a"), [(JRef (VDouble (-4764536264827549633)) (txt "java.lang.Double") 1)], (txt "-0x1.0fp-33"));
  ((txt "%.2a"), [(JRef (VDouble 4757769942235873280) (txt "java.lang.Double") 1)], (txt "0x1.70p+33"));
  ((txt "%.2a"), [(JRef (VDouble (-4465602094618902528)) (txt "java.lang.Double") 1)], (txt "-0x1.70p+33"));
  ((txt "%.2a"), [(JRef (VDouble 3936146074321813504) (txt "java.lang.Double") 1)], (txt "0x1.00p-149"));
  ((txt "%.2a"), [(JRef (VDouble (-4039728866288205824)) (txt "java.lang.Double") 1)], (txt "-0x1.00p+128"));
  ((txt "%.2a"), [(JRef (VDouble 9218868437227405311) (txt "java.lang.Double") 1)], (txt "0x1.00p+1024"));
  ((txt "%.2a"), [(JRef (VDouble (-4503599627370497)) (txt "java.lang.Double") 1)], (txt "-0x1.00p+1024"));
  ((txt "%.2a"), [(JRef (VDouble 1) (txt "java.lang.Double") 1)], (txt "0x1.00p-1074"));
  ((txt "%.2a"), [(JRef (VDouble (-9223372036854775807)) (txt "java.lang.Double") 1)], (txt "-0x1.00p-1074"));
  ((txt "%.2a"), [(JRef (VDouble 9218868437227405312) (txt "java.lang.Double") 1)], (txt "Infinity"));
  ((txt "%.2a"), [(JRef (VDouble (-4503599627370496)) (txt "java.lang.Double") 1)], (txt "-Infinity"));
  ((txt "%.2a"), [(JRef (VDouble 9221120237041090560) (txt "java.lang.Double") 1)], (txt "NaN"));
  ((txt "%.3a"), [(JRef (VDouble 0) (txt "java.lang.Double") 1)], (txt "0x0.000p+0"));
  ((txt "%.3a"), [(JRef (VDouble (-9223372036854775808)) (txt "java.lang.Double") 1)], (txt "-0x0.000p+0"));
  ((txt "%.3a"), [(JRef (VDouble 4607182418800017408) (txt "java.lang.Double") 1)], (txt "0x1.000p+0"));
  ((txt "%.3a"), [(JRef (VDouble (-4616189618054758400)) (txt "java.lang.Double") 1)], (txt "-0x1.000p+0"));
  ((txt "%.3a"), [(JRef (VDouble 4614256656552045848) (txt "java.lang.Double") 1)], (txt "0x1.922p+1"));
  ((txt "%.3a"), [(JRef (VDouble (-4609115380302729960)) (txt "java.lang.Double") 1)], (txt "-0x1.922p+1"));
  ((txt "%.3a"), [(JRef (VDouble 4458835772027226175) (txt "java.lang.Double") 1)], (txt "0x1.0f8p-33"));
  ((txt "%.3a"), [(JRef (VDouble (-4764536264827549633)) (txt "java.lang.Double") 1)], (txt "-0x1.0f8p-33"));
  ((txt "%.3a"), [(JRef (VDouble 4757769942235873280) (txt "java.lang.Double") 1)], (txt "0x1.6ffp+33"));
  ((txt "%.3a"), [(JRef (VDouble (-4465602094618902528)) (txt "java.lang.Double") 1)], (txt "-0x1.6ffp+33"));
  ((txt "%.3a"), [(JRef (VDouble 3936146074321813504) (txt "java.lang.Double") 1)], (txt "0x1.000p-149"));
  ((txt "%.3a"), [(JRef (VDouble (-4039728866288205824)) (txt "java.lang.Double") 1)], (txt "-0x1.000p+128"));
  ((txt "%.3a"), [(JRef (VDouble 9218868437227405311) (txt "java.lang.Double") 1)], (txt "0x1.000p+1024"));
  ((txt "%.3a"), [(JRef (VDouble (-4503599627370497)) (txt "java.lang.Double") 1)], (txt "-0x1.000p+1024"));
  ((txt "%.3a"), [(JRef (VDouble 1) (txt "java.lang.Double") 1)], (txt "0x1.000p-1074"));
  ((txt "%.3a"), [(JRef (VDouble (-9223372036854775807)) (txt "java.lang.Double") 1)], (txt "-0x1.000p-1074"));
  ((txt "%.3a"), [(JRef (VDouble 9218868437227405312) (txt "java.lang.Double") 1)], (txt "Infinity"));
  ((txt "%.3a"), [(JRef (VDouble (-4503599627370496)) (txt "java.lang.Double") 1)], (txt "-Infinity"));
  ((txt "%.3a"), [(JRef (VDouble 9221120237041090560) (txt "java.lang.Double") 1)], (txt "NaN"));
  ((txt "%.4a"), [(JRef (VDouble 0) (txt "java.lang.Double") 1)], (txt "0x0.0000p+0"));
  ((txt "%.4a"), [(JRef (VDouble (-9223372036854775808)) (txt "java.lang.Double") 1)], (txt "-0x0.0000p+0"));
  ((txt "%.4a"), [(JRef (VDouble 4607182418800017408) (txt "java.lang.Double") 1)], (txt "0x1.0000p+0"));
  ((txt "%.4a"), [(JRef (VDouble (-4616189618054758400)) (txt "java.lang.Double") 1)], (txt "-0x1.0000p+0"));
  ((txt "%.4a"), [(JRef (VDouble 4614256656552045848) (txt "java.lang.Double") 1)], (txt "0x1.9220p+1"));
  ((txt "%.4a"), [(JRef (VDouble (-4609115380302729960)) (txt "java.lang.Double") 1)], (txt "-0x1.9220p+1"));
  ((txt "%.4a"), [(JRef (VDouble 4458835772027226175) (txt "java.lang.Double") 1)], (txt "0x1.0f78p-33"));
  ((txt "%.4a"), [(JRef (VDouble (-4764536264827549633)) (txt "java.lang.Double") 1)], (txt "-0x1.0f78p-33"));
  ((txt "%.4a"), [(JRef (VDouble 4757769942235873280) (txt "java.lang.Double") 1)], (txt "0x1.6fe9p+33"));
  ((txt "%.4a"), [(JRef (VDouble (-4465602094618902528)) (txt "java.lang.Double") 1)], (txt "-0x1.6fe9p+33"));
  ((txt "%.4a"), [(JRef (VDouble 3936146074321813504) (txt "java.lang.Double") 1)], (txt "0x1.0000p-149"));
  ((txt "%.4a"), [(JRef (VDouble (-4039728866288205824)) (txt "java.lang.Double") 1)], (txt "-0x1.0000p+128"));
  ((txt "%.4a"), [(JRef (VDouble 9218868437227405311) (txt "java.lang.Double") 1)], (txt "0x1.0000p+1024"));
  ((txt "%.4a"), [(JRef (VDouble (-4503599627370497)) (txt "java.lang.Double") 1)], (txt "-0x1.0000p+1024"));
  ((txt "%.4a"), [(JRef (VDouble 1) (txt "java.lang.Double") 1)], (txt "0x1.0000p-1074"));
  ((txt "%.4a"), [(JRef (VDouble (-9223372036854775807)) (txt "java.lang.Double") 1)], (txt "-0x1.0000p-1074"));
  ((txt "%.4a"), [(JRef (VDouble 9218868437227405312) (txt "java.lang.Double") 1)], (txt "Infinity"));
  ((txt "%.4a"), [(JRef (VDouble (-4503599627370496)) (txt "java.lang.Double") 1)], (txt "-Infinity"));
  ((txt "%.4a"), [(JRef (VDouble 9221120237041090560) (txt "java.lang.Double") 1)], (txt "NaN"));
  ((txt "%.5a"), [(JRef (VDouble 0) (txt "java.lang.Double") 1)], (txt "0x0.00000p+0"));
  ((txt "%.5a"), [(JRef (VDouble (-9223372036854775808)) (txt "java.lang.Double") 1)], (txt "-0x0.00000p+0"));
  ((txt "%.5a"), [(JRef (VDouble 4607182418800017408) (txt "java.lang.Double") 1)], (txt "0x1.00000p+0"));
  ((txt "%.5a"), [(JRef (VDouble (-4616189618054758400)) (txt "java.lang.Double") 1)], (txt "-0x1.00000p+0"));
  ((txt "%.5a"), [(JRef (VDouble 4614256656552045848) (txt "java.lang.Double") 1)], (txt "0x1.921fbp+1"));
  ((txt "%.5a"), [(JRef (VDouble (-4609115380302729960)) (txt "java.lang.Double") 1)], (txt "-0x1.921fbp+1"));
  ((txt "%.5a"), [(JRef (VDouble 4458835772027226175) (txt "java.lang.Double") 1)], (txt "0x1.0f783p-33"));
  ((txt "%.5a"), [(JRef (VDouble (-4764536264827549633)) (txt "java.lang.Double") 1)], (txt "-0x1.0f783p-33"));
  ((txt "%.5a"), [(JRef (VDouble 4757769942235873280) (txt "java.lang.Double") 1)], (txt "0x1.6fe8ep+33"));
  ((txt "%.5a"), [(JRef (VDouble (-4465602094618902528)) (txt "java.lang.Double") 1)], (txt "-0x1.6fe8ep+33"));
  ((txt "%.5a"), [(JRef (VDouble 3936146074321813504) (txt "java.lang.Double") 1)], (txt "0x1.00000p-149"));
  ((txt "%.5a"), [(JRef (VDouble (-4039728866288205824)) (txt "java.lang.Double") 1)], (txt "-0x1.00000p+128"));
  ((txt "%.5a"), [(JRef (VDouble 9218868437227405311) (txt "java.lang.Double") 1)], (txt "0x1.00000p+1024"));
  ((txt "%.5a"), [(JRef (VDouble (-4503599627370497)) (txt "java.lang.Double") 1)], (txt "-0x1.00000p+1024"));
  ((txt "%.5a"), [(JRef (VDouble 1) (txt "java.lang.Double") 1)], (txt "0x1.00000p-1074"));
  ((txt "%.5a"), [(JRef (VDouble (-9223372036854775807)) (txt "java.lang.Double") 1)], (txt "-0x1.00000p-1074"));
  ((txt "%.5a"), [(JRef (VDouble 9218868437227405312) (txt "java.lang.Double") 1)], (txt "Infinity"));
  ((txt "%.5a"), [(JRef (VDouble (-4503599627370496)) (txt "java.lang.Double") 1)], (txt "-Infinity"));
  ((txt "%.5a"), [(JRef (VDouble 9221120237041090560) (txt "java.lang.Double") 1)], (txt "NaN"));
  ((txt "%.6a"), [(JRef (VDouble 0) (txt "java.lang.Double") 1)], (txt "0x0.000000p+0"));
  ((txt "%.6a"), [(JRef (VDouble (-9223372036854775808)) (txt "java.lang.Double") 1)], (txt "-0x0.000000p+0"));
  ((txt "%.6a"), [(JRef (VDouble 4607182418800017408) (txt "java.lang.Double") 1)], (txt "0x1.000000p+0"));
  ((txt "%.6a"), [(JRef (VDouble (-4616189618054758400)) (txt "java.lang.Double") 1)], (txt "-0x1.000000p+0"));
  ((txt "%.6a"), [(JRef (VDouble 4614256656552045848) (txt "java.lang.Double") 1)], (txt "0x1.921fb5p+1"));
  ((txt "%.6a"), [(JRef (VDouble (-4609115380302729960)) (txt "java.lang.Double") 1)], (txt "-0x1.921fb5p+1"));
  ((txt "%.6a"), [(JRef (VDouble 4458835772027226175) (txt "java.lang.Double") 1)], (txt "0x1.0f782cp-33"));
  ((txt "%.6a"), [(JRef (VDouble (-4764536264827549633)) (txt "java.lang.Double") 1)], (txt "-0x1.0f782cp-33"));
  ((txt "%.6a"), [(JRef (VDouble 4757769942235873280) (txt "java.lang.Double") 1)], (txt "0x1.6fe8e0p+33"));
  ((txt "%.6a"), [(JRef (VDouble (-4465602094618902528)) (txt "java.lang.Double") 1)], (txt "-0x1.6fe8e0p+33"));
  ((txt "%.6a"), [(JRef (VDouble 3936146074321813504) (txt "java.lang.Double") 1)], (txt "0x1.000000p-149"));
  ((txt "%.6a"), [(JRef (VDouble (-4039728866288205824)) (txt "java.lang.Double") 1)], (txt "-0x1.fffffep+127"));
  ((txt "%.6a"), [(JRef (VDouble 9218868437227405311) (txt "java.lang.Double") 1)], (txt "0x1.000000p+1024"));
  ((txt "%.6a"), [(JRef (VDouble (-4503599627370497)) (txt "java.lang.Double") 1)], (txt "-0x1.000000p+1024"));
  ((txt "%.6a"), [(JRef (VDouble 1) (txt "java.lang.Double") 1)], (txt "0x1.000000p-1074"));
  ((txt "%.6a"), [(JRef (VDouble (-9223372036854775807)) (txt "java.lang.Double") 1)], (txt "-0x1.000000p-1074"));
  ((txt "%.6a"), [(JRef (VDouble 9218868437227405312) (txt "java.lang.Double") 1)], (txt "Infinity"));
  ((txt "%.6a"), [(JRef (VDouble (-4503599627370496)) (txt "java.lang.Double") 1)], (txt "-Infinity"));
  ((txt "%.6a"), [(JRef (VDouble 9221120237041090560) (txt "java.lang.Double") 1)], (txt "NaN"));
  ((txt "%.7a"), [(JRef (VDouble 0) (txt "java.lang.Double") 1)], (txt "0x0.0000000p+0"));
  ((txt "%.7a"), [(JRef (VDouble (-9223372036854775808)) (txt "java.lang.Double") 1)], (txt "-0x0.0000000p+0"));
  ((txt "%.7a"), [(JRef (VDouble 4607182418800017408) (txt "java.lang.Double") 1)], (txt "0x1.0000000p+0"));
  ((txt "%.7a"), [(JRef (VDouble (-4616189618054758400)) (txt "java.lang.Double") 1)], (txt "-0x1.0000000p+0"));
  ((txt "%.7a"), [(JRef (VDouble 4614256656552045848) (txt "java.lang.Double") 1)], (txt "0x1.921fb54p+1"));
  ((txt "%.7a"), [(JRef (VDouble (-4609115380302729960)) (txt "java.lang.Double") 1)], (txt "-0x1.921fb54p+1"));
  ((txt "%.7a"), [(JRef (VDouble 4458835772027226175) (txt "java.lang.Double") 1)], (txt "0x1.0f782bfp-33"));
  ((txt "%.7a"), [(JRef (VDouble (-4764536264827549633)) (txt "java.lang.Double") 1)], (txt "-0x1.0f782bfp-33"));
  ((txt "%.7a"), [(JRef (VDouble 4757769942235873280) (txt "java.lang.Double") 1)], (txt "0x1.6fe8e02p+33"));
  ((txt "%.7a"), [(JRef (VDouble (-4465602094618902528)) (txt "java.lang.Double") 1)], (txt "-0x1.6fe8e02p+33"));
  ((txt "%.7a"), [(JRef (VDouble 3936146074321813504) (txt "java.lang.Double") 1)], (txt "0x1.0000000p-149"));
  ((txt "%.7a"), [(JRef (VDouble (-4039728866288205824)) (txt "java.lang.Double") 1)], (txt "-0x1.fffffe0p+127"));
  ((txt "%.7a"), [(JRef (VDouble 9218868437227405311) (txt "java.lang.Double") 1)], (txt "0x1.0000000p+1024"));
  ((txt "%.7a"), [(JRef (VDouble (-4503599627370497)) (txt "java.lang.Double") 1)], (txt "-0x1.0000000p+1024"));
  ((txt "%.7a"), [(JRef (VDouble 1) (txt "java.lang.Double") 1)], (txt "0x1.0000000p-1074"));
  ((txt "%.7a"), [(JRef (VDouble (-9223372036854775807)) (txt "java.lang.Double") 1)], (txt "-0x1.0000000p-1074"));
  ((txt "%.7a"), [(JRef (VDouble 9218868437227405312) (txt "java.lang.Double") 1)], (txt "Infinity"));
  ((txt "%.7a"), [(JRef (VDouble (-4503599627370496)) (txt "java.lang.Double") 1)], (txt "-Infinity"));
  ((txt "%.7a"), [(JRef (VDouble 9221120237041090560) (txt "java.lang.Double") 1)], (txt "NaN"));
  ((txt "%#.6A"), [(JRef (VDouble 0) (txt "java.lang.Double") 1)], (txt "0X0.000000P+0"));
  ((txt "%#.6A"), [(JRef (VDouble (-9223372036854775808)) (txt "java.lang.Double") 1)], (txt "-0X0.000000P+0"));
  ((txt "%#.6A"), [(JRef (VDouble 4607182418800017408) (txt "java.lang.Double") 1)], (txt "0X1.000000P+0"));
  ((txt "%#.6A"), [(JRef (VDouble (-4616189618054758400)) (txt "java.lang.Double") 1)], (txt "-0X1.000000P+0"));
  ((txt "%#.6A"), [(JRef (VDouble 4614256656552045848) (txt "java.lang.Double") 1)], (txt "0X1.921FB5P+1"));
  ((txt "%#.6A"), [(JRef (VDouble (-4609115380302729960)) (txt "java.lang.Double") 1)], (txt "-0X1.921FB5P+1"));
  ((txt "%#.6A"), [(JRef (VDouble 4458835772027226175) (txt "java.lang.Double") 1)], (txt "0X1.0F782CP-33"));
  ((txt "%#.6A"), [(JRef (VDouble (-4764536264827549633)) (txt "java.lang.Double") 1)], (txt "-0X1.0F782CP-33"));
  ((txt "%#.6A"), [(JRef (VDouble 4757769942235873280) (txt "java.lang.Double") 1)], (txt "0X1.6FE8E0P+33"));
  ((txt "%#.6A"), [(JRef (VDouble (-4465602094618902528)) (txt "java.lang.Double") 1)], (txt "-0X1.6FE8E0P+33"));
  ((txt "%#.6A"), [(JRef (VDouble 3936146074321813504) (txt "java.lang.Double") 1)], (txt "0X1.000000P-149"));
  ((txt "%#.6A"), [(JRef (VDouble (-4039728866288205824)) (txt "java.lang.Double") 1)], (txt "-0X1.FFFFFEP+127"));
  ((txt "%#.6A"), [(JRef (VDouble 9218868437227405311) (txt "java.lang.Double") 1)], (txt "0X1.000000P+1024"));
  ((txt "%#.6A"), [(JRef (VDouble (-4503599627370497)) (txt "java.lang.Double") 1)], (txt "-0X1.000000P+1024"));
  ((txt "%#.6A"), [(JRef (VDouble 1) (txt "java.lang.Double") 1)], (txt "0X1.000000P-1074"));
  ((txt "%#.6A"), [(JRef (VDouble (-9223372036854775807)) (txt "java.lang.Double") 1)], (txt "-0X1.000000P-1074"));
  ((txt "%#.6A"), [(JRef (VDouble 9218868437227405312) (txt "java.lang.Double") 1)], (txt "INFINITY"));
  ((txt "%#.6A"), [(JRef (VDouble (-4503599627370496)) (txt "java.lang.Double") 1)], (txt "-INFINITY"));
  ((txt "%#.6A"), [(JRef (VDouble 9221120237041090560) (txt "java.lang.Double") 1)], (txt "NAN"));
  ((txt "%+.7A"), [(JRef (VDouble 0) (txt "java.lang.Double") 1)], (txt "+0X0.0000000P+0"));
  ((txt "%+.7A"), [(JRef (VDouble (-9223372036854775808)) (txt "java.lang.Double") 1)], (txt "-0X0.0000000P+0"));
  ((txt "%+.7A"), [(JRef (VDouble 4607182418800017408) (txt "java.lang.Double") 1)], (txt "+0X1.0000000P+0"));
  ((txt "%+.7A"), [(JRef (VDouble (-4616189618054758400)) (txt "java.lang.Double") 1)], (txt "-0X1.0000000P+0"));
  ((txt "%+.7A"), [(JRef (VDouble 4614256656552045848) (txt "java.lang.Double") 1)], (txt "+0X1.921FB54P+1"));
  ((txt "%+.7A"), [(JRef (VDouble (-4609115380302729960)) (txt "java.lang.Double") 1)], (txt "-0X1.921FB54P+1"));
  ((txt "%+.7A"), [(JRef (VDouble 4458835772027226175) (txt "java.lang.Double") 1)], (txt "+0X1.0F782BFP-33"));
  ((txt "%+.7A"), [(JRef (VDouble (-4764536264827549633)) (txt "java.lang.Double") 1)], (txt "-0X1.0F782BFP-33"));
  ((txt "%+.7A"), [(JRef (VDouble 4757769942235873280) (txt "java.lang.Double") 1)], (txt "+0X1.6FE8E02P+33"));
  ((txt "%+.7A"), [(JRef (VDouble (-4465602094618902528)) (txt "java.lang.Double") 1)], (txt "-0X1.6FE8E02P+33"));
  ((txt "%+.7A"), [(JRef (VDouble 3936146074321813504) (txt "java.lang.Double") 1)], (txt "+0X1.0000000P-149"));
  ((txt "%+.7A"), [(JRef (VDouble (-4039728866288205824)) (txt "java.lang.Double") 1)], (txt "-0X1.FFFFFE0P+127"));
  ((txt "%+.7A"), [(JRef (VDouble 9218868437227405311) (txt "java.lang.Double") 1)], (txt "+0X1.0000000P+1024"));
  ((txt "%+.7A"), [(JRef (VDouble (-4503599627370497)) (txt "java.lang.Double") 1)], (txt "-0X1.0000000P+1024"));
  ((txt "%+.7A"), [(JRef (VDouble 1) (txt "java.lang.Double") 1)], (txt "+0X1.0000000P-1074"));
  ((txt "%+.7A"), [(JRef (VDouble (-9223372036854775807)) (txt "java.lang.Double") 1)], (txt "-0X1.0000000P-1074"));
  ((txt "%+.7A"), [(JRef (VDouble 9218868437227405312) (txt "java.lang.Double") 1)], (txt "+INFINITY"));
  ((txt "%+.7A"), [(JRef (VDouble (-4503599627370496)) (txt "java.lang.Double") 1)], (txt "-INFINITY"));
  ((txt "%+.7A"), [(JRef (VDouble 9221120237041090560) (txt "java.lang.Double") 1)], (txt "NAN"))].
Example hex_like_jdk_pass : filter (fun v => negb (passes v)) hex_like_jdk = [].
Proof. vm_compute. reflexivity. Qed.

(** FastPrintfTest.java, MoreFastPrintfTest.java, FastPrintfImplTest.java, FastPrintfAdvancedFeaturesTest.java *)
Definition fastprintf : list vector := [
  ((txt "%d %f %s %s"), [(JRef (VInt 1) (txt "java.lang.Integer") 1); (JRef (VDouble 4611686018427387904) (txt "java.lang.Double") 1); (JRef (VObj (OChars (txt "hello"))) (txt "[C") 1); JNull], (txt "1 2.000000 hello null"));
  ((txt "Some different radices: %d %x %o %#x %#o %.2S"), [(JRef (VInt 1) (txt "java.lang.Integer") 1); (JRef (VInt 2) (txt "java.lang.Integer") 1); (JRef (VInt 3) (txt "java.lang.Integer") 1); (JRef (VStr (txt "4")) (txt "java.lang.String") 1); (JRef (VInt 5) (txt "java.lang.Integer") 1); JNull], (txt "Some different radices: 1 2 3 0x4 05 NU"));
  ([102; 108; 111; 97; 116; 115; 58; 32; 37; 52; 46; 50; 102; 32; 37; 43; 46; 48; 101; 32; 37; 69; 32; 10], [(JRef (VDouble 4614256673094690983) (txt "java.lang.Double") 1); (JRef (VDouble 4614256673094690983) (txt "java.lang.Double") 1); (JRef (VStr (txt "3.1416")) (txt "java.lang.String") 1)], [102; 108; 111; 97; 116; 115; 58; 32; 51; 46; 49; 52; 32; 43; 51; 101; 43; 48; 48; 32; 51; 46; 49; 52; 49; 54; 48; 48; 69; 43; 48; 48; 32; 10]);
  ((txt "User: %s, ID: %d"), [(JRef (VStr (txt "test")) (txt "java.lang.String") 1); (JRef (VInt 123) (txt "java.lang.Integer") 1)], (txt "User: test, ID: 123"));
  ((txt "%d, %d, %d, %d, %d"), [(JRef (VByte 10) (txt "java.lang.Byte") 1); (JRef (VShort 20) (txt "java.lang.Short") 1); (JRef (VInt 30) (txt "java.lang.Integer") 1); (JRef (VLong 40) (txt "java.lang.Long") 1); (JRef (VBig 50) (txt "java.math.BigInteger") 1)], (txt "10, 20, 30, 40, 50"));
  ((txt "%.1f, %.1f, %.1f"), [(JRef (VFloat 1067030938) (txt "java.lang.Float") 1); (JRef (VDouble 4614838538166547251) (txt "java.lang.Double") 1); (JRef (VDec (mkBD 567 2)) (txt "java.math.BigDecimal") 1)], (txt "1.2, 3.4, 5.7"));
  ((txt "|%05d|%-5s|%#x|"), [(JRef (VInt 123) (txt "java.lang.Integer") 1); (JRef (VStr (txt "abc")) (txt "java.lang.String") 1); (JRef (VInt 255) (txt "java.lang.Integer") 1)], (txt "|00123|abc  |0xff|"));
  ((txt "|%*.*f|"), [(JRef (VInt 7) (txt "java.lang.Integer") 1); (JRef (VInt 2) (txt "java.lang.Integer") 1); (JRef (VDouble 4614256650576692846) (txt "java.lang.Double") 1)], (txt "|   3.14|"));
  ((txt "|%*s|"), [(JRef (VInt (-5)) (txt "java.lang.Integer") 1); (JRef (VStr (txt "abc")) (txt "java.lang.String") 1)], (txt "|abc  |"));
  ((txt "Hello, %S!"), [(JRef (VStr (txt "world")) (txt "java.lang.String") 1)], (txt "Hello, WORLD!"));
  ((txt "%d"), [(JRef (VInt 1) (txt "java.lang.Integer") 1); (JRef (VInt 2) (txt "java.lang.Integer") 1); (JRef (VInt 3) (txt "java.lang.Integer") 1)], (txt "1"));
  ((txt "Numbers: %.1f and %x"), [(JRef (VDouble 4623139235229744497) (txt "java.lang.Double") 1); (JRef (VInt 255) (txt "java.lang.Integer") 1)], (txt "Numbers: 12.3 and ff"));
  ((txt "Static text"), [], (txt "Static text"));
  ((txt "User ID: %d, Name: %s, Score: %.2f"), [(JRef (VInt 101) (txt "java.lang.Integer") 1); (JRef (VStr (txt "test-user")) (txt "java.lang.String") 1); (JRef (VDouble 4636728565630358258) (txt "java.lang.Double") 1)], (txt "User ID: 101, Name: test-user, Score: 99.88"));
  ((txt "The value is: %s"), [JNull], (txt "The value is: null"));
  ((txt "Name: %s, ID: %04d, Temp: %.2f%%, Hex: %#X"), [(JRef (VStr (txt "test")) (txt "java.lang.String") 1); (JRef (VInt 7) (txt "java.lang.Integer") 1); (JRef (VDouble 4636639830643950223) (txt "java.lang.Double") 1); (JRef (VInt 255) (txt "java.lang.Integer") 1)], (txt "Name: test, ID: 0007, Temp: 98.62%, Hex: 0XFF"));
  ((txt "Rate is 100%%"), [], (txt "Rate is 100%"));
  ((txt "User: %-*s | ID: %0*d | Pi: %.*f"), [(JRef (VInt 10) (txt "java.lang.Integer") 1); (JRef (VStr (txt "Alice")) (txt "java.lang.String") 1); (JRef (VInt 8) (txt "java.lang.Integer") 1); (JRef (VInt 123) (txt "java.lang.Integer") 1); (JRef (VInt 3) (txt "java.lang.Integer") 1); (JRef (VDouble 4614256656552045848) (txt "java.lang.Double") 1)], (txt "User: Alice      | ID: 00000123 | Pi: 3.142"));
  ((txt "%#08X, %05.2f, %.5S"), [(JRef (VLong 123456789) (txt "java.lang.Long") 1); (JRef (VDouble 4614256656552045848) (txt "java.lang.Double") 1); (JRef (VStr (txt "Hello World")) (txt "java.lang.String") 1)], (txt "0X75BCD15, 03.14, HELLO"));
  ((txt "%p"), [JNull], (txt "null"))].
Example fastprintf_pass : filter (fun v => negb (passes v)) fastprintf = [].
Proof. vm_compute. reflexivity. Qed.

(** DefaultAppenderTest.java *)
Definition defaultappender : list vector := [
  ((txt "%5d"), [(JRef (VInt 42) (txt "java.lang.Integer") 1)], (txt "   42"));
  ((txt "%*s"), [(JRef (VInt 10) (txt "java.lang.Integer") 1); (JRef (VStr (txt "test")) (txt "java.lang.String") 1)], (txt "      test"));
  ((txt "%*s"), [(JRef (VInt (-10)) (txt "java.lang.Integer") 1); (JRef (VStr (txt "test")) (txt "java.lang.String") 1)], (txt "test      "));
  ((txt "%.*s"), [(JRef (VInt 3) (txt "java.lang.Integer") 1); (JRef (VStr (txt "hello")) (txt "java.lang.String") 1)], (txt "hel"));
  ((txt "%.*s"), [(JRef (VInt (-5)) (txt "java.lang.Integer") 1); (JRef (VStr (txt "hello")) (txt "java.lang.String") 1)], (txt "hello"));
  ((txt "%*.*s"), [(JRef (VInt 10) (txt "java.lang.Integer") 1); (JRef (VInt 3) (txt "java.lang.Integer") 1); (JRef (VStr (txt "hello")) (txt "java.lang.String") 1)], (txt "       hel"));
  ((txt "%X"), [(JRef (VInt 255) (txt "java.lang.Integer") 1)], (txt "FF"));
  ((txt "%F"), [(JRef (VDouble 9218868437227405312) (txt "java.lang.Double") 1)], (txt "INFINITY"));
  ((txt "%F"), [(JRef (VDouble 9221120237041090560) (txt "java.lang.Double") 1)], (txt "NAN"));
  ((txt "%E"), [(JRef (VDouble 4638387860618067575) (txt "java.lang.Double") 1)], (txt "1.234560E+02"));
  ((txt "%A"), [(JRef (VDouble 4607182418800017408) (txt "java.lang.Double") 1)], (txt "0X1.0P+0"));
  ((txt "%S"), [(JRef (VStr (txt "Hello World")) (txt "java.lang.String") 1)], (txt "HELLO WORLD"));
  ((txt "%G"), [(JRef (VDouble 5057307314742747760) (txt "java.lang.Double") 1)], (txt "1.23457E+30"));
  ((txt "%.2G"), [(JRef (VDouble 4458818363495423724) (txt "java.lang.Double") 1)], (txt "1.2E-10"));
  ((txt "%G"), [(JRef (VDouble 9218868437227405312) (txt "java.lang.Double") 1)], (txt "INFINITY"));
  ((txt "%n"), [(JRef (VInt 123) (txt "java.lang.Integer") 1)], (txt ""))].
Example defaultappender_pass : filter (fun v => negb (passes v)) defaultappender = [].
Proof. vm_compute. reflexivity. Qed.

(** BigDecimalWrapperTest.java, DoubleWrapperTest.java, FloatFormTest.java (decimal and scientific; java.util.Formatter written out) *)
Definition layouts : list vector := [
  ((txt "%.0f"), [(JRef (VDec (mkBD 1234567 4)) (txt "java.math.BigDecimal") 1)], (txt "123"));
  ((txt "%.0e"), [(JRef (VDec (mkBD 1234567 4)) (txt "java.math.BigDecimal") 1)], (txt "1e+02"));
  ((txt "%.2f"), [(JRef (VDec (mkBD 1234567 4)) (txt "java.math.BigDecimal") 1)], (txt "123.46"));
  ((txt "%.2e"), [(JRef (VDec (mkBD 1234567 4)) (txt "java.math.BigDecimal") 1)], (txt "1.23e+02"));
  ((txt "%.6f"), [(JRef (VDec (mkBD 1234567 4)) (txt "java.math.BigDecimal") 1)], (txt "123.456700"));
  ((txt "%.6e"), [(JRef (VDec (mkBD 1234567 4)) (txt "java.math.BigDecimal") 1)], (txt "1.234567e+02"));
  ((txt "%.10f"), [(JRef (VDec (mkBD 1234567 4)) (txt "java.math.BigDecimal") 1)], (txt "123.4567000000"));
  ((txt "%.10e"), [(JRef (VDec (mkBD 1234567 4)) (txt "java.math.BigDecimal") 1)], (txt "1.2345670000e+02"));
  ((txt "%.0f"), [(JRef (VDec (mkBD (-1234567) 4)) (txt "java.math.BigDecimal") 1)], (txt "-123"));
  ((txt "%.0e"), [(JRef (VDec (mkBD (-1234567) 4)) (txt "java.math.BigDecimal") 1)], (txt "-1e+02"));
  ((txt "%.2f"), [(JRef (VDec (mkBD (-1234567) 4)) (txt "java.math.BigDecimal") 1)], (txt "-123.46"));
  ((txt "%.2e"), [(JRef (VDec (mkBD (-1234567) 4)) (txt "java.math.BigDecimal") 1)], (txt "-1.23e+02"));
  ((txt "%.6f"), [(JRef (VDec (mkBD (-1234567) 4)) (txt "java.math.BigDecimal") 1)], (txt "-123.456700"));
  ((txt "%.6e"), [(JRef (VDec (mkBD (-1234567) 4)) (txt "java.math.BigDecimal") 1)], (txt "-1.234567e+02"));
  ((txt "%.10f"), [(JRef (VDec (mkBD (-1234567) 4)) (txt "java.math.BigDecimal") 1)], (txt "-123.4567000000"));
  ((txt "%.10e"), [(JRef (VDec (mkBD (-1234567) 4)) (txt "java.math.BigDecimal") 1)], (txt "-1.2345670000e+02"));
  ((txt "%.0f"), [(JRef (VDec (mkBD 0 0)) (txt "java.math.BigDecimal") 1)], (txt "0"));
  ((txt "%.0e"), [(JRef (VDec (mkBD 0 0)) (txt "java.math.BigDecimal") 1)], (txt "0e+00"));
  ((txt "%.2f"), [(JRef (VDec (mkBD 0 0)) (txt "java.math.BigDecimal") 1)], (txt "0.00"));
  ((txt "%.2e"), [(JRef (VDec (mkBD 0 0)) (txt "java.math.BigDecimal") 1)], (txt "0.00e+00"));
  ((txt "%.6f"), [(JRef (VDec (mkBD 0 0)) (txt "java.math.BigDecimal") 1)], (txt "0.000000"));
  ((txt "%.6e"), [(JRef (VDec (mkBD 0 0)) (txt "java.math.BigDecimal") 1)], (txt "0.000000e+00"));
  ((txt "%.10f"), [(JRef (VDec (mkBD 0 0)) (txt "java.math.BigDecimal") 1)], (txt "0.0000000000"));
  ((txt "%.10e"), [(JRef (VDec (mkBD 0 0)) (txt "java.math.BigDecimal") 1)], (txt "0.0000000000e+00"));
  ((txt "%.0f"), [(JRef (VDec (mkBD 123 6)) (txt "java.math.BigDecimal") 1)], (txt "0"));
  ((txt "%.0e"), [(JRef (VDec (mkBD 123 6)) (txt "java.math.BigDecimal") 1)], (txt "1e-04"));
  ((txt "%.2f"), [(JRef (VDec (mkBD 123 6)) (txt "java.math.BigDecimal") 1)], (txt "0.00"));
  ((txt "%.2e"), [(JRef (VDec (mkBD 123 6)) (txt "java.math.BigDecimal") 1)], (txt "1.23e-04"));
  ((txt "%.6f"), [(JRef (VDec (mkBD 123 6)) (txt "java.math.BigDecimal") 1)], (txt "0.000123"));
  ((txt "%.6e"), [(JRef (VDec (mkBD 123 6)) (txt "java.math.BigDecimal") 1)], (txt "1.230000e-04"));
  ((txt "%.10f"), [(JRef (VDec (mkBD 123 6)) (txt "java.math.BigDecimal") 1)], (txt "0.0001230000"));
  ((txt "%.10e"), [(JRef (VDec (mkBD 123 6)) (txt "java.math.BigDecimal") 1)], (txt "1.2300000000e-04"));
  ((txt "%.0f"), [(JRef (VDec (mkBD 12345678901234567890123 3)) (txt "java.math.BigDecimal") 1)], (txt "12345678901234567890"));
  ((txt "%.0e"), [(JRef (VDec (mkBD 12345678901234567890123 3)) (txt "java.math.BigDecimal") 1)], (txt "1e+19"));
  ((txt "%.2f"), [(JRef (VDec (mkBD 12345678901234567890123 3)) (txt "java.math.BigDecimal") 1)], (txt "12345678901234567890.12"));
  ((txt "%.2e"), [(JRef (VDec (mkBD 12345678901234567890123 3)) (txt "java.math.BigDecimal") 1)], (txt "1.23e+19"));
  ((txt "%.6f"), [(JRef (VDec (mkBD 12345678901234567890123 3)) (txt "java.math.BigDecimal") 1)], (txt "12345678901234567890.123000"));
  ((txt "%.6e"), [(JRef (VDec (mkBD 12345678901234567890123 3)) (txt "java.math.BigDecimal") 1)], (txt "1.234568e+19"));
  ((txt "%.10f"), [(JRef (VDec (mkBD 12345678901234567890123 3)) (txt "java.math.BigDecimal") 1)], (txt "12345678901234567890.1230000000"));
  ((txt "%.10e"), [(JRef (VDec (mkBD 12345678901234567890123 3)) (txt "java.math.BigDecimal") 1)], (txt "1.2345678901e+19"));
  ((txt "%.0f"), [(JRef (VDouble 0) (txt "java.lang.Double") 1)], (txt "0"));
  ((txt "%.0e"), [(JRef (VDouble 0) (txt "java.lang.Double") 1)], (txt "0e+00"));
  ((txt "%.3f"), [(JRef (VDouble 0) (txt "java.lang.Double") 1)], (txt "0.000"));
  ((txt "%.3e"), [(JRef (VDouble 0) (txt "java.lang.Double") 1)], (txt "0.000e+00"));
  ((txt "%.8f"), [(JRef (VDouble 0) (txt "java.lang.Double") 1)], (txt "0.00000000"));
  ((txt "%.8e"), [(JRef (VDouble 0) (txt "java.lang.Double") 1)], (txt "0.00000000e+00"));
  ((txt "%.0f"), [(JRef (VDouble (-9223372036854775808)) (txt "java.lang.Double") 1)], (txt "-0"));
  ((txt "%.0e"), [(JRef (VDouble (-9223372036854775808)) (txt "java.lang.Double") 1)], (txt "-0e+00"));
  ((txt "%.3f"), [(JRef (VDouble (-9223372036854775808)) (txt "java.lang.Double") 1)], (txt "-0.000"));
  ((txt "%.3e"), [(JRef (VDouble (-9223372036854775808)) (txt "java.lang.Double") 1)], (txt "-0.000e+00"));
  ((txt "%.8f"), [(JRef (VDouble (-9223372036854775808)) (txt "java.lang.Double") 1)], (txt "-0.00000000"));
  ((txt "%.8e"), [(JRef (VDouble (-9223372036854775808)) (txt "java.lang.Double") 1)], (txt "-0.00000000e+00"));
  ((txt "%.0f"), [(JRef (VDouble 4607182418800017408) (txt "java.lang.Double") 1)], (txt "1"));
  ((txt "%.0e"), [(JRef (VDouble 4607182418800017408) (txt "java.lang.Double") 1)], (txt "1e+00"));
  ((txt "%.3f"), [(JRef (VDouble 4607182418800017408) (txt "java.lang.Double") 1)], (txt "1.000"));
  ((txt "%.3e"), [(JRef (VDouble 4607182418800017408) (txt "java.lang.Double") 1)], (txt "1.000e+00"));
  ((txt "%.8f"), [(JRef (VDouble 4607182418800017408) (txt "java.lang.Double") 1)], (txt "1.00000000"));
  ((txt "%.8e"), [(JRef (VDouble 4607182418800017408) (txt "java.lang.Double") 1)], (txt "1.00000000e+00"));
  ((txt "%.0f"), [(JRef (VDouble (-4584984176236708233)) (txt "java.lang.Double") 1)], (txt "-123"));
  ((txt "%.0e"), [(JRef (VDouble (-4584984176236708233)) (txt "java.lang.Double") 1)], (txt "-1e+02"));
  ((txt "%.3f"), [(JRef (VDouble (-4584984176236708233)) (txt "java.lang.Double") 1)], (txt "-123.456"));
  ((txt "%.3e"), [(JRef (VDouble (-4584984176236708233)) (txt "java.lang.Double") 1)], (txt "-1.235e+02"));
  ((txt "%.8f"), [(JRef (VDouble (-4584984176236708233)) (txt "java.lang.Double") 1)], (txt "-123.45600000"));
  ((txt "%.8e"), [(JRef (VDouble (-4584984176236708233)) (txt "java.lang.Double") 1)], (txt "-1.23456000e+02"));
  ((txt "%.0f"), [(JRef (VDouble 4614256656552045848) (txt "java.lang.Double") 1)], (txt "3"));
  ((txt "%.0e"), [(JRef (VDouble 4614256656552045848) (txt "java.lang.Double") 1)], (txt "3e+00"));
  ((txt "%.3f"), [(JRef (VDouble 4614256656552045848) (txt "java.lang.Double") 1)], (txt "3.142"));
  ((txt "%.3e"), [(JRef (VDouble 4614256656552045848) (txt "java.lang.Double") 1)], (txt "3.142e+00"));
  ((txt "%.8f"), [(JRef (VDouble 4614256656552045848) (txt "java.lang.Double") 1)], (txt "3.14159265"));
  ((txt "%.8e"), [(JRef (VDouble 4614256656552045848) (txt "java.lang.Double") 1)], (txt "3.14159265e+00"));
  ((txt "%.0f"), [(JRef (VDouble 9218868437227405311) (txt "java.lang.Double") 1)], (txt "179769313486231570000000000000000000000000000000000000000000000000000000000000000000000000000000000000000000000000000000000000000000000000000000000000000000000000000000000000000000000000000000000000000000000000000000000000000000000000000000000000000000000000000000000000000000000000000000000000000000000000000"));
  ((txt "%.0e"), [(JRef (VDouble 9218868437227405311) (txt "java.lang.Double") 1)], (txt "2e+308"));
  ((txt "%.3f"), [(JRef (VDouble 9218868437227405311) (txt "java.lang.Double") 1)], (txt "179769313486231570000000000000000000000000000000000000000000000000000000000000000000000000000000000000000000000000000000000000000000000000000000000000000000000000000000000000000000000000000000000000000000000000000000000000000000000000000000000000000000000000000000000000000000000000000000000000000000000000000.000"));
  ((txt "%.3e"), [(JRef (VDouble 9218868437227405311) (txt "java.lang.Double") 1)], (txt "1.798e+308"));
  ((txt "%.8f"), [(JRef (VDouble 9218868437227405311) (txt "java.lang.Double") 1)], (txt "179769313486231570000000000000000000000000000000000000000000000000000000000000000000000000000000000000000000000000000000000000000000000000000000000000000000000000000000000000000000000000000000000000000000000000000000000000000000000000000000000000000000000000000000000000000000000000000000000000000000000000000.00000000"));
  ((txt "%.8e"), [(JRef (VDouble 9218868437227405311) (txt "java.lang.Double") 1)], (txt "1.79769313e+308"));
  ((txt "%.0f"), [(JRef (VDouble 4503599627370496) (txt "java.lang.Double") 1)], (txt "0"));
  ((txt "%.0e"), [(JRef (VDouble 4503599627370496) (txt "java.lang.Double") 1)], (txt "2e-308"));
  ((txt "%.3f"), [(JRef (VDouble 4503599627370496) (txt "java.lang.Double") 1)], (txt "0.000"));
  ((txt "%.3e"), [(JRef (VDouble 4503599627370496) (txt "java.lang.Double") 1)], (txt "2.225e-308"));
  ((txt "%.8f"), [(JRef (VDouble 4503599627370496) (txt "java.lang.Double") 1)], (txt "0.00000000"));
  ((txt "%.8e"), [(JRef (VDouble 4503599627370496) (txt "java.lang.Double") 1)], (txt "2.22507386e-308"));
  ((txt "%.1f"), [(JRef (VDouble 0) (txt "java.lang.Double") 1)], (txt "0.0"));
  ((txt "%.1e"), [(JRef (VDouble 0) (txt "java.lang.Double") 1)], (txt "0.0e+00"));
  ((txt "%.5f"), [(JRef (VDouble 0) (txt "java.lang.Double") 1)], (txt "0.00000"));
  ((txt "%.5e"), [(JRef (VDouble 0) (txt "java.lang.Double") 1)], (txt "0.00000e+00"));
  ((txt "%.1f"), [(JRef (VDouble 4607182418800017408) (txt "java.lang.Double") 1)], (txt "1.0"));
  ((txt "%.1e"), [(JRef (VDouble 4607182418800017408) (txt "java.lang.Double") 1)], (txt "1.0e+00"));
  ((txt "%.5f"), [(JRef (VDouble 4607182418800017408) (txt "java.lang.Double") 1)], (txt "1.00000"));
  ((txt "%.5e"), [(JRef (VDouble 4607182418800017408) (txt "java.lang.Double") 1)], (txt "1.00000e+00"));
  ((txt "%.1f"), [(JRef (VDouble (-4616189618054758400)) (txt "java.lang.Double") 1)], (txt "-1.0"));
  ((txt "%.1e"), [(JRef (VDouble (-4616189618054758400)) (txt "java.lang.Double") 1)], (txt "-1.0e+00"));
  ((txt "%.3f"), [(JRef (VDouble (-4616189618054758400)) (txt "java.lang.Double") 1)], (txt "-1.000"));
  ((txt "%.3e"), [(JRef (VDouble (-4616189618054758400)) (txt "java.lang.Double") 1)], (txt "-1.000e+00"));
  ((txt "%.5f"), [(JRef (VDouble (-4616189618054758400)) (txt "java.lang.Double") 1)], (txt "-1.00000"));
  ((txt "%.5e"), [(JRef (VDouble (-4616189618054758400)) (txt "java.lang.Double") 1)], (txt "-1.00000e+00"));
  ((txt "%.8f"), [(JRef (VDouble (-4616189618054758400)) (txt "java.lang.Double") 1)], (txt "-1.00000000"));
  ((txt "%.8e"), [(JRef (VDouble (-4616189618054758400)) (txt "java.lang.Double") 1)], (txt "-1.00000000e+00"));
  ((txt "%.1f"), [(JRef (VDouble 4591870180066957722) (txt "java.lang.Double") 1)], (txt "0.1"));
  ((txt "%.1e"), [(JRef (VDouble 4591870180066957722) (txt "java.lang.Double") 1)], (txt "1.0e-01"));
  ((txt "%.3f"), [(JRef (VDouble 4591870180066957722) (txt "java.lang.Double") 1)], (txt "0.100"));
  ((txt "%.3e"), [(JRef (VDouble 4591870180066957722) (txt "java.lang.Double") 1)], (txt "1.000e-01"));
  ((txt "%.5f"), [(JRef (VDouble 4591870180066957722) (txt "java.lang.Double") 1)], (txt "0.10000"));
  ((txt "%.5e"), [(JRef (VDouble 4591870180066957722) (txt "java.lang.Double") 1)], (txt "1.00000e-01"));
  ((txt "%.8f"), [(JRef (VDouble 4591870180066957722) (txt "java.lang.Double") 1)], (txt "0.10000000"));
  ((txt "%.8e"), [(JRef (VDouble 4591870180066957722) (txt "java.lang.Double") 1)], (txt "1.00000000e-01"));
  ((txt "%.1f"), [(JRef (VDouble (-4631501856787818086)) (txt "java.lang.Double") 1)], (txt "-0.1"));
  ((txt "%.1e"), [(JRef (VDouble (-4631501856787818086)) (txt "java.lang.Double") 1)], (txt "-1.0e-01"));
  ((txt "%.3f"), [(JRef (VDouble (-4631501856787818086)) (txt "java.lang.Double") 1)], (txt "-0.100"));
  ((txt "%.3e"), [(JRef (VDouble (-4631501856787818086)) (txt "java.lang.Double") 1)], (txt "-1.000e-01"));
  ((txt "%.5f"), [(JRef (VDouble (-4631501856787818086)) (txt "java.lang.Double") 1)], (txt "-0.10000"));
  ((txt "%.5e"), [(JRef (VDouble (-4631501856787818086)) (txt "java.lang.Double") 1)], (txt "-1.00000e-01"));
  ((txt "%.8f"), [(JRef (VDouble (-4631501856787818086)) (txt "java.lang.Double") 1)], (txt "-0.10000000"));
  ((txt "%.8e"), [(JRef (VDouble (-4631501856787818086)) (txt "java.lang.Double") 1)], (txt "-1.00000000e-01"));
  ((txt "%.1f"), [(JRef (VDouble 4614256656552045848) (txt "java.lang.Double") 1)], (txt "3.1"));
  ((txt "%.1e"), [(JRef (VDouble 4614256656552045848) (txt "java.lang.Double") 1)], (txt "3.1e+00"));
  ((txt "%.5f"), [(JRef (VDouble 4614256656552045848) (txt "java.lang.Double") 1)], (txt "3.14159"));
  ((txt "%.5e"), [(JRef (VDouble 4614256656552045848) (txt "java.lang.Double") 1)], (txt "3.14159e+00"));
  ((txt "%.1f"), [(JRef (VDouble (-4609115380302729960)) (txt "java.lang.Double") 1)], (txt "-3.1"));
  ((txt "%.1e"), [(JRef (VDouble (-4609115380302729960)) (txt "java.lang.Double") 1)], (txt "-3.1e+00"));
  ((txt "%.3f"), [(JRef (VDouble (-4609115380302729960)) (txt "java.lang.Double") 1)], (txt "-3.142"));
  ((txt "%.3e"), [(JRef (VDouble (-4609115380302729960)) (txt "java.lang.Double") 1)], (txt "-3.142e+00"));
  ((txt "%.5f"), [(JRef (VDouble (-4609115380302729960)) (txt "java.lang.Double") 1)], (txt "-3.14159"));
  ((txt "%.5e"), [(JRef (VDouble (-4609115380302729960)) (txt "java.lang.Double") 1)], (txt "-3.14159e+00"));
  ((txt "%.8f"), [(JRef (VDouble (-4609115380302729960)) (txt "java.lang.Double") 1)], (txt "-3.14159265"));
  ((txt "%.8e"), [(JRef (VDouble (-4609115380302729960)) (txt "java.lang.Double") 1)], (txt "-3.14159265e+00"));
  ((txt "%.1f"), [(JRef (VDouble 9218868437227405311) (txt "java.lang.Double") 1)], (txt "179769313486231570000000000000000000000000000000000000000000000000000000000000000000000000000000000000000000000000000000000000000000000000000000000000000000000000000000000000000000000000000000000000000000000000000000000000000000000000000000000000000000000000000000000000000000000000000000000000000000000000000.0"));
  ((txt "%.1e"), [(JRef (VDouble 9218868437227405311) (txt "java.lang.Double") 1)], (txt "1.8e+308"));
  ((txt "%.5f"), [(JRef (VDouble 9218868437227405311) (txt "java.lang.Double") 1)], (txt "179769313486231570000000000000000000000000000000000000000000000000000000000000000000000000000000000000000000000000000000000000000000000000000000000000000000000000000000000000000000000000000000000000000000000000000000000000000000000000000000000000000000000000000000000000000000000000000000000000000000000000000.00000"));
  ((txt "%.5e"), [(JRef (VDouble 9218868437227405311) (txt "java.lang.Double") 1)], (txt "1.79769e+308"));
  ((txt "%.1f"), [(JRef (VDouble 1) (txt "java.lang.Double") 1)], (txt "0.0"));
  ((txt "%.1e"), [(JRef (VDouble 1) (txt "java.lang.Double") 1)], (txt "4.9e-324"));
  ((txt "%.3f"), [(JRef (VDouble 1) (txt "java.lang.Double") 1)], (txt "0.000"));
  ((txt "%.3e"), [(JRef (VDouble 1) (txt "java.lang.Double") 1)], (txt "4.900e-324"));
  ((txt "%.5f"), [(JRef (VDouble 1) (txt "java.lang.Double") 1)], (txt "0.00000"));
  ((txt "%.5e"), [(JRef (VDouble 1) (txt "java.lang.Double") 1)], (txt "4.90000e-324"));
  ((txt "%.8f"), [(JRef (VDouble 1) (txt "java.lang.Double") 1)], (txt "0.00000000"));
  ((txt "%.8e"), [(JRef (VDouble 1) (txt "java.lang.Double") 1)], (txt "4.90000000e-324"));
  ((txt "%.1f"), [(JRef (VDouble 4658195980029648221) (txt "java.lang.Double") 1)], (txt "2718.3"));
  ((txt "%.1e"), [(JRef (VDouble 4658195980029648221) (txt "java.lang.Double") 1)], (txt "2.7e+03"));
  ((txt "%.3f"), [(JRef (VDouble 4658195980029648221) (txt "java.lang.Double") 1)], (txt "2718.282"));
  ((txt "%.3e"), [(JRef (VDouble 4658195980029648221) (txt "java.lang.Double") 1)], (txt "2.718e+03"));
  ((txt "%.5f"), [(JRef (VDouble 4658195980029648221) (txt "java.lang.Double") 1)], (txt "2718.28183"));
  ((txt "%.5e"), [(JRef (VDouble 4658195980029648221) (txt "java.lang.Double") 1)], (txt "2.71828e+03"));
  ((txt "%.8f"), [(JRef (VDouble 4658195980029648221) (txt "java.lang.Double") 1)], (txt "2718.28182846"));
  ((txt "%.8e"), [(JRef (VDouble 4658195980029648221) (txt "java.lang.Double") 1)], (txt "2.71828183e+03"));
  ((txt "%.1f"), [(JRef (VDouble (-4654957683177238453)) (txt "java.lang.Double") 1)], (txt "-0.0"));
  ((txt "%.1e"), [(JRef (VDouble (-4654957683177238453)) (txt "java.lang.Double") 1)], (txt "-2.7e-03"));
  ((txt "%.3f"), [(JRef (VDouble (-4654957683177238453)) (txt "java.lang.Double") 1)], (txt "-0.003"));
  ((txt "%.3e"), [(JRef (VDouble (-4654957683177238453)) (txt "java.lang.Double") 1)], (txt "-2.718e-03"));
  ((txt "%.5f"), [(JRef (VDouble (-4654957683177238453)) (txt "java.lang.Double") 1)], (txt "-0.00272"));
  ((txt "%.5e"), [(JRef (VDouble (-4654957683177238453)) (txt "java.lang.Double") 1)], (txt "-2.71828e-03"));
  ((txt "%.8f"), [(JRef (VDouble (-4654957683177238453)) (txt "java.lang.Double") 1)], (txt "-0.00271828"));
  ((txt "%.8e"), [(JRef (VDouble (-4654957683177238453)) (txt "java.lang.Double") 1)], (txt "-2.71828183e-03"));
  ((txt "%.1f"), [(JRef (VDouble 4890909195324358656) (txt "java.lang.Double") 1)], (txt "9223372036854776000.0"));
  ((txt "%.1e"), [(JRef (VDouble 4890909195324358656) (txt "java.lang.Double") 1)], (txt "9.2e+18"));
  ((txt "%.3f"), [(JRef (VDouble 4890909195324358656) (txt "java.lang.Double") 1)], (txt "9223372036854776000.000"));
  ((txt "%.3e"), [(JRef (VDouble 4890909195324358656) (txt "java.lang.Double") 1)], (txt "9.223e+18"));
  ((txt "%.5f"), [(JRef (VDouble 4890909195324358656) (txt "java.lang.Double") 1)], (txt "9223372036854776000.00000"));
  ((txt "%.5e"), [(JRef (VDouble 4890909195324358656) (txt "java.lang.Double") 1)], (txt "9.22337e+18"));
  ((txt "%.8f"), [(JRef (VDouble 4890909195324358656) (txt "java.lang.Double") 1)], (txt "9223372036854776000.00000000"));
  ((txt "%.8e"), [(JRef (VDouble 4890909195324358656) (txt "java.lang.Double") 1)], (txt "9.22337204e+18"));
  ((txt "%.1f"), [(JRef (VDouble (-4332462841530417152)) (txt "java.lang.Double") 1)], (txt "-9223372036854776000.0"));
  ((txt "%.1e"), [(JRef (VDouble (-4332462841530417152)) (txt "java.lang.Double") 1)], (txt "-9.2e+18"));
  ((txt "%.3f"), [(JRef (VDouble (-4332462841530417152)) (txt "java.lang.Double") 1)], (txt "-9223372036854776000.000"));
  ((txt "%.3e"), [(JRef (VDouble (-4332462841530417152)) (txt "java.lang.Double") 1)], (txt "-9.223e+18"));
  ((txt "%.5f"), [(JRef (VDouble (-4332462841530417152)) (txt "java.lang.Double") 1)], (txt "-9223372036854776000.00000"));
  ((txt "%.5e"), [(JRef (VDouble (-4332462841530417152)) (txt "java.lang.Double") 1)], (txt "-9.22337e+18"));
  ((txt "%.8f"), [(JRef (VDouble (-4332462841530417152)) (txt "java.lang.Double") 1)], (txt "-9223372036854776000.00000000"));
  ((txt "%.8e"), [(JRef (VDouble (-4332462841530417152)) (txt "java.lang.Double") 1)], (txt "-9.22337204e+18"));
  ((txt "%.1f"), [(JRef (VDouble 4467570830353629184) (txt "java.lang.Double") 1)], (txt "0.0"));
  ((txt "%.1e"), [(JRef (VDouble 4467570830353629184) (txt "java.lang.Double") 1)], (txt "4.7e-10"));
  ((txt "%.3f"), [(JRef (VDouble 4467570830353629184) (txt "java.lang.Double") 1)], (txt "0.000"));
  ((txt "%.3e"), [(JRef (VDouble 4467570830353629184) (txt "java.lang.Double") 1)], (txt "4.657e-10"));
  ((txt "%.5f"), [(JRef (VDouble 4467570830353629184) (txt "java.lang.Double") 1)], (txt "0.00000"));
  ((txt "%.5e"), [(JRef (VDouble 4467570830353629184) (txt "java.lang.Double") 1)], (txt "4.65661e-10"));
  ((txt "%.8f"), [(JRef (VDouble 4467570830353629184) (txt "java.lang.Double") 1)], (txt "0.00000000"));
  ((txt "%.8e"), [(JRef (VDouble 4467570830353629184) (txt "java.lang.Double") 1)], (txt "4.65661288e-10"));
  ((txt "%.1f"), [(JRef (VDouble (-4755801206503243776)) (txt "java.lang.Double") 1)], (txt "-0.0"));
  ((txt "%.1e"), [(JRef (VDouble (-4755801206503243776)) (txt "java.lang.Double") 1)], (txt "-4.7e-10"));
  ((txt "%.3f"), [(JRef (VDouble (-4755801206503243776)) (txt "java.lang.Double") 1)], (txt "-0.000"));
  ((txt "%.3e"), [(JRef (VDouble (-4755801206503243776)) (txt "java.lang.Double") 1)], (txt "-4.657e-10"));
  ((txt "%.5f"), [(JRef (VDouble (-4755801206503243776)) (txt "java.lang.Double") 1)], (txt "-0.00000"));
  ((txt "%.5e"), [(JRef (VDouble (-4755801206503243776)) (txt "java.lang.Double") 1)], (txt "-4.65661e-10"));
  ((txt "%.8f"), [(JRef (VDouble (-4755801206503243776)) (txt "java.lang.Double") 1)], (txt "-0.00000000"));
  ((txt "%.8e"), [(JRef (VDouble (-4755801206503243776)) (txt "java.lang.Double") 1)], (txt "-4.65661287e-10"));
  ((txt "%.1f"), [(JRef (VDec (mkBD 0 0)) (txt "java.math.BigDecimal") 1)], (txt "0.0"));
  ((txt "%.1e"), [(JRef (VDec (mkBD 0 0)) (txt "java.math.BigDecimal") 1)], (txt "0.0e+00"));
  ((txt "%.3f"), [(JRef (VDec (mkBD 0 0)) (txt "java.math.BigDecimal") 1)], (txt "0.000"));
  ((txt "%.3e"), [(JRef (VDec (mkBD 0 0)) (txt "java.math.BigDecimal") 1)], (txt "0.000e+00"));
  ((txt "%.5f"), [(JRef (VDec (mkBD 0 0)) (txt "java.math.BigDecimal") 1)], (txt "0.00000"));
  ((txt "%.5e"), [(JRef (VDec (mkBD 0 0)) (txt "java.math.BigDecimal") 1)], (txt "0.00000e+00"));
  ((txt "%.8f"), [(JRef (VDec (mkBD 0 0)) (txt "java.math.BigDecimal") 1)], (txt "0.00000000"));
  ((txt "%.8e"), [(JRef (VDec (mkBD 0 0)) (txt "java.math.BigDecimal") 1)], (txt "0.00000000e+00"));
  ((txt "%.16f"), [(JRef (VDec (mkBD 0 0)) (txt "java.math.BigDecimal") 1)], (txt "0.0000000000000000"));
  ((txt "%.16e"), [(JRef (VDec (mkBD 0 0)) (txt "java.math.BigDecimal") 1)], (txt "0.0000000000000000e+00"));
  ((txt "%.1f"), [(JRef (VDec (mkBD 1 0)) (txt "java.math.BigDecimal") 1)], (txt "1.0"));
  ((txt "%.1e"), [(JRef (VDec (mkBD 1 0)) (txt "java.math.BigDecimal") 1)], (txt "1.0e+00"));
  ((txt "%.3f"), [(JRef (VDec (mkBD 1 0)) (txt "java.math.BigDecimal") 1)], (txt "1.000"));
  ((txt "%.3e"), [(JRef (VDec (mkBD 1 0)) (txt "java.math.BigDecimal") 1)], (txt "1.000e+00"));
  ((txt "%.5f"), [(JRef (VDec (mkBD 1 0)) (txt "java.math.BigDecimal") 1)], (txt "1.00000"));
  ((txt "%.5e"), [(JRef (VDec (mkBD 1 0)) (txt "java.math.BigDecimal") 1)], (txt "1.00000e+00"));
  ((txt "%.8f"), [(JRef (VDec (mkBD 1 0)) (txt "java.math.BigDecimal") 1)], (txt "1.00000000"));
  ((txt "%.8e"), [(JRef (VDec (mkBD 1 0)) (txt "java.math.BigDecimal") 1)], (txt "1.00000000e+00"));
  ((txt "%.16f"), [(JRef (VDec (mkBD 1 0)) (txt "java.math.BigDecimal") 1)], (txt "1.0000000000000000"));
  ((txt "%.16e"), [(JRef (VDec (mkBD 1 0)) (txt "java.math.BigDecimal") 1)], (txt "1.0000000000000000e+00"));
  ((txt "%.1f"), [(JRef (VDec (mkBD (-1) 0)) (txt "java.math.BigDecimal") 1)], (txt "-1.0"));
  ((txt "%.1e"), [(JRef (VDec (mkBD (-1) 0)) (txt "java.math.BigDecimal") 1)], (txt "-1.0e+00"));
  ((txt "%.3f"), [(JRef (VDec (mkBD (-1) 0)) (txt "java.math.BigDecimal") 1)], (txt "-1.000"));
  ((txt "%.3e"), [(JRef (VDec (mkBD (-1) 0)) (txt "java.math.BigDecimal") 1)], (txt "-1.000e+00"));
  ((txt "%.5f"), [(JRef (VDec (mkBD (-1) 0)) (txt "java.math.BigDecimal") 1)], (txt "-1.00000"));
  ((txt "%.5e"), [(JRef (VDec (mkBD (-1) 0)) (txt "java.math.BigDecimal") 1)], (txt "-1.00000e+00"));
  ((txt "%.8f"), [(JRef (VDec (mkBD (-1) 0)) (txt "java.math.BigDecimal") 1)], (txt "-1.00000000"));
  ((txt "%.8e"), [(JRef (VDec (mkBD (-1) 0)) (txt "java.math.BigDecimal") 1)], (txt "-1.00000000e+00"));
  ((txt "%.16f"), [(JRef (VDec (mkBD (-1) 0)) (txt "java.math.BigDecimal") 1)], (txt "-1.0000000000000000"));
  ((txt "%.16e"), [(JRef (VDec (mkBD (-1) 0)) (txt "java.math.BigDecimal") 1)], (txt "-1.0000000000000000e+00"));
  ((txt "%.1f"), [(JRef (VDec (mkBD 1 1)) (txt "java.math.BigDecimal") 1)], (txt "0.1"));
  ((txt "%.1e"), [(JRef (VDec (mkBD 1 1)) (txt "java.math.BigDecimal") 1)], (txt "1.0e-01"));
  ((txt "%.3f"), [(JRef (VDec (mkBD 1 1)) (txt "java.math.BigDecimal") 1)], (txt "0.100"));
  ((txt "%.3e"), [(JRef (VDec (mkBD 1 1)) (txt "java.math.BigDecimal") 1)], (txt "1.000e-01"));
  ((txt "%.5f"), [(JRef (VDec (mkBD 1 1)) (txt "java.math.BigDecimal") 1)], (txt "0.10000"));
  ((txt "%.5e"), [(JRef (VDec (mkBD 1 1)) (txt "java.math.BigDecimal") 1)], (txt "1.00000e-01"));
  ((txt "%.8f"), [(JRef (VDec (mkBD 1 1)) (txt "java.math.BigDecimal") 1)], (txt "0.10000000"));
  ((txt "%.8e"), [(JRef (VDec (mkBD 1 1)) (txt "java.math.BigDecimal") 1)], (txt "1.00000000e-01"));
  ((txt "%.16f"), [(JRef (VDec (mkBD 1 1)) (txt "java.math.BigDecimal") 1)], (txt "0.1000000000000000"));
  ((txt "%.16e"), [(JRef (VDec (mkBD 1 1)) (txt "java.math.BigDecimal") 1)], (txt "1.0000000000000000e-01"));
  ((txt "%.1f"), [(JRef (VDec (mkBD (-1) 1)) (txt "java.math.BigDecimal") 1)], (txt "-0.1"));
  ((txt "%.1e"), [(JRef (VDec (mkBD (-1) 1)) (txt "java.math.BigDecimal") 1)], (txt "-1.0e-01"));
  ((txt "%.3f"), [(JRef (VDec (mkBD (-1) 1)) (txt "java.math.BigDecimal") 1)], (txt "-0.100"));
  ((txt "%.3e"), [(JRef (VDec (mkBD (-1) 1)) (txt "java.math.BigDecimal") 1)], (txt "-1.000e-01"));
  ((txt "%.5f"), [(JRef (VDec (mkBD (-1) 1)) (txt "java.math.BigDecimal") 1)], (txt "-0.10000"));
  ((txt "%.5e"), [(JRef (VDec (mkBD (-1) 1)) (txt "java.math.BigDecimal") 1)], (txt "-1.00000e-01"));
  ((txt "%.8f"), [(JRef (VDec (mkBD (-1) 1)) (txt "java.math.BigDecimal") 1)], (txt "-0.10000000"));
  ((txt "%.8e"), [(JRef (VDec (mkBD (-1) 1)) (txt "java.math.BigDecimal") 1)], (txt "-1.00000000e-01"));
  ((txt "%.16f"), [(JRef (VDec (mkBD (-1) 1)) (txt "java.math.BigDecimal") 1)], (txt "-0.1000000000000000"));
  ((txt "%.16e"), [(JRef (VDec (mkBD (-1) 1)) (txt "java.math.BigDecimal") 1)], (txt "-1.0000000000000000e-01"));
  ((txt "%.1f"), [(JRef (VDec (mkBD 3141592653589793 15)) (txt "java.math.BigDecimal") 1)], (txt "3.1"));
  ((txt "%.1e"), [(JRef (VDec (mkBD 3141592653589793 15)) (txt "java.math.BigDecimal") 1)], (txt "3.1e+00"));
  ((txt "%.3f"), [(JRef (VDec (mkBD 3141592653589793 15)) (txt "java.math.BigDecimal") 1)], (txt "3.142"));
  ((txt "%.3e"), [(JRef (VDec (mkBD 3141592653589793 15)) (txt "java.math.BigDecimal") 1)], (txt "3.142e+00"));
  ((txt "%.5f"), [(JRef (VDec (mkBD 3141592653589793 15)) (txt "java.math.BigDecimal") 1)], (txt "3.14159"));
  ((txt "%.5e"), [(JRef (VDec (mkBD 3141592653589793 15)) (txt "java.math.BigDecimal") 1)], (txt "3.14159e+00"));
  ((txt "%.8f"), [(JRef (VDec (mkBD 3141592653589793 15)) (txt "java.math.BigDecimal") 1)], (txt "3.14159265"));
  ((txt "%.8e"), [(JRef (VDec (mkBD 3141592653589793 15)) (txt "java.math.BigDecimal") 1)], (txt "3.14159265e+00"));
  ((txt "%.16f"), [(JRef (VDec (mkBD 3141592653589793 15)) (txt "java.math.BigDecimal") 1)], (txt "3.1415926535897930"));
  ((txt "%.16e"), [(JRef (VDec (mkBD 3141592653589793 15)) (txt "java.math.BigDecimal") 1)], (txt "3.1415926535897930e+00"));
  ((txt "%.1f"), [(JRef (VDec (mkBD (-3141592653589793) 15)) (txt "java.math.BigDecimal") 1)], (txt "-3.1"));
  ((txt "%.1e"), [(JRef (VDec (mkBD (-3141592653589793) 15)) (txt "java.math.BigDecimal") 1)], (txt "-3.1e+00"));
  ((txt "%.3f"), [(JRef (VDec (mkBD (-3141592653589793) 15)) (txt "java.math.BigDecimal") 1)], (txt "-3.142"));
  ((txt "%.3e"), [(JRef (VDec (mkBD (-3141592653589793) 15)) (txt "java.math.BigDecimal") 1)], (txt "-3.142e+00"));
  ((txt "%.5f"), [(JRef (VDec (mkBD (-3141592653589793) 15)) (txt "java.math.BigDecimal") 1)], (txt "-3.14159"));
  ((txt "%.5e"), [(JRef (VDec (mkBD (-3141592653589793) 15)) (txt "java.math.BigDecimal") 1)], (txt "-3.14159e+00"));
  ((txt "%.8f"), [(JRef (VDec (mkBD (-3141592653589793) 15)) (txt "java.math.BigDecimal") 1)], (txt "-3.14159265"));
  ((txt "%.8e"), [(JRef (VDec (mkBD (-3141592653589793) 15)) (txt "java.math.BigDecimal") 1)], (txt "-3.14159265e+00"));
  ((txt "%.16f"), [(JRef (VDec (mkBD (-3141592653589793) 15)) (txt "java.math.BigDecimal") 1)], (txt "-3.1415926535897930"));
  ((txt "%.16e"), [(JRef (VDec (mkBD (-3141592653589793) 15)) (txt "java.math.BigDecimal") 1)], (txt "-3.1415926535897930e+00"));
  ((txt "%.1f"), [(JRef (VDec (mkBD 17976931348623157 (-292))) (txt "java.math.BigDecimal") 1)], (txt "179769313486231570000000000000000000000000000000000000000000000000000000000000000000000000000000000000000000000000000000000000000000000000000000000000000000000000000000000000000000000000000000000000000000000000000000000000000000000000000000000000000000000000000000000000000000000000000000000000000000000000000.0"));
  ((txt "%.1e"), [(JRef (VDec (mkBD 17976931348623157 (-292))) (txt "java.math.BigDecimal") 1)], (txt "1.8e+308"));
  ((txt "%.3f"), [(JRef (VDec (mkBD 17976931348623157 (-292))) (txt "java.math.BigDecimal") 1)], (txt "179769313486231570000000000000000000000000000000000000000000000000000000000000000000000000000000000000000000000000000000000000000000000000000000000000000000000000000000000000000000000000000000000000000000000000000000000000000000000000000000000000000000000000000000000000000000000000000000000000000000000000000.000"));
  ((txt "%.3e"), [(JRef (VDec (mkBD 17976931348623157 (-292))) (txt "java.math.BigDecimal") 1)], (txt "1.798e+308"));
  ((txt "%.5f"), [(JRef (VDec (mkBD 17976931348623157 (-292))) (txt "java.math.BigDecimal") 1)], (txt "179769313486231570000000000000000000000000000000000000000000000000000000000000000000000000000000000000000000000000000000000000000000000000000000000000000000000000000000000000000000000000000000000000000000000000000000000000000000000000000000000000000000000000000000000000000000000000000000000000000000000000000.00000"));
  ((txt "%.5e"), [(JRef (VDec (mkBD 17976931348623157 (-292))) (txt "java.math.BigDecimal") 1)], (txt "1.79769e+308"));
  ((txt "%.8f"), [(JRef (VDec (mkBD 17976931348623157 (-292))) (txt "java.math.BigDecimal") 1)], (txt "179769313486231570000000000000000000000000000000000000000000000000000000000000000000000000000000000000000000000000000000000000000000000000000000000000000000000000000000000000000000000000000000000000000000000000000000000000000000000000000000000000000000000000000000000000000000000000000000000000000000000000000.00000000"));
  ((txt "%.8e"), [(JRef (VDec (mkBD 17976931348623157 (-292))) (txt "java.math.BigDecimal") 1)], (txt "1.79769313e+308"));
  ((txt "%.16f"), [(JRef (VDec (mkBD 17976931348623157 (-292))) (txt "java.math.BigDecimal") 1)], (txt "179769313486231570000000000000000000000000000000000000000000000000000000000000000000000000000000000000000000000000000000000000000000000000000000000000000000000000000000000000000000000000000000000000000000000000000000000000000000000000000000000000000000000000000000000000000000000000000000000000000000000000000.0000000000000000"));
  ((txt "%.16e"), [(JRef (VDec (mkBD 17976931348623157 (-292))) (txt "java.math.BigDecimal") 1)], (txt "1.7976931348623157e+308"));
  ((txt "%.1f"), [(JRef (VDec (mkBD 49 325)) (txt "java.math.BigDecimal") 1)], (txt "0.0"));
  ((txt "%.1e"), [(JRef (VDec (mkBD 49 325)) (txt "java.math.BigDecimal") 1)], (txt "4.9e-324"));
  ((txt "%.3f"), [(JRef (VDec (mkBD 49 325)) (txt "java.math.BigDecimal") 1)], (txt "0.000"));
  ((txt "%.3e"), [(JRef (VDec (mkBD 49 325)) (txt "java.math.BigDecimal") 1)], (txt "4.900e-324"));
  ((txt "%.5f"), [(JRef (VDec (mkBD 49 325)) (txt "java.math.BigDecimal") 1)], (txt "0.00000"));
  ((txt "%.5e"), [(JRef (VDec (mkBD 49 325)) (txt "java.math.BigDecimal") 1)], (txt "4.90000e-324"));
  ((txt "%.8f"), [(JRef (VDec (mkBD 49 325)) (txt "java.math.BigDecimal") 1)], (txt "0.00000000"));
  ((txt "%.8e"), [(JRef (VDec (mkBD 49 325)) (txt "java.math.BigDecimal") 1)], (txt "4.90000000e-324"));
  ((txt "%.16f"), [(JRef (VDec (mkBD 49 325)) (txt "java.math.BigDecimal") 1)], (txt "0.0000000000000000"));
  ((txt "%.16e"), [(JRef (VDec (mkBD 49 325)) (txt "java.math.BigDecimal") 1)], (txt "4.9000000000000000e-324"));
  ((txt "%.1f"), [(JRef (VDec (mkBD 27182818284590453 13)) (txt "java.math.BigDecimal") 1)], (txt "2718.3"));
  ((txt "%.1e"), [(JRef (VDec (mkBD 27182818284590453 13)) (txt "java.math.BigDecimal") 1)], (txt "2.7e+03"));
  ((txt "%.3f"), [(JRef (VDec (mkBD 27182818284590453 13)) (txt "java.math.BigDecimal") 1)], (txt "2718.282"));
  ((txt "%.3e"), [(JRef (VDec (mkBD 27182818284590453 13)) (txt "java.math.BigDecimal") 1)], (txt "2.718e+03"));
  ((txt "%.5f"), [(JRef (VDec (mkBD 27182818284590453 13)) (txt "java.math.BigDecimal") 1)], (txt "2718.28183"));
  ((txt "%.5e"), [(JRef (VDec (mkBD 27182818284590453 13)) (txt "java.math.BigDecimal") 1)], (txt "2.71828e+03"));
  ((txt "%.8f"), [(JRef (VDec (mkBD 27182818284590453 13)) (txt "java.math.BigDecimal") 1)], (txt "2718.28182846"));
  ((txt "%.8e"), [(JRef (VDec (mkBD 27182818284590453 13)) (txt "java.math.BigDecimal") 1)], (txt "2.71828183e+03"));
  ((txt "%.16f"), [(JRef (VDec (mkBD 27182818284590453 13)) (txt "java.math.BigDecimal") 1)], (txt "2718.2818284590453000"));
  ((txt "%.16e"), [(JRef (VDec (mkBD 27182818284590453 13)) (txt "java.math.BigDecimal") 1)], (txt "2.7182818284590453e+03"));
  ((txt "%.1f"), [(JRef (VDec (mkBD (-2718281828459045) 18)) (txt "java.math.BigDecimal") 1)], (txt "-0.0"));
  ((txt "%.1e"), [(JRef (VDec (mkBD (-2718281828459045) 18)) (txt "java.math.BigDecimal") 1)], (txt "-2.7e-03"));
  ((txt "%.3f"), [(JRef (VDec (mkBD (-2718281828459045) 18)) (txt "java.math.BigDecimal") 1)], (txt "-0.003"));
  ((txt "%.3e"), [(JRef (VDec (mkBD (-2718281828459045) 18)) (txt "java.math.BigDecimal") 1)], (txt "-2.718e-03"));
  ((txt "%.5f"), [(JRef (VDec (mkBD (-2718281828459045) 18)) (txt "java.math.BigDecimal") 1)], (txt "-0.00272"));
  ((txt "%.5e"), [(JRef (VDec (mkBD (-2718281828459045) 18)) (txt "java.math.BigDecimal") 1)], (txt "-2.71828e-03"));
  ((txt "%.8f"), [(JRef (VDec (mkBD (-2718281828459045) 18)) (txt "java.math.BigDecimal") 1)], (txt "-0.00271828"));
  ((txt "%.8e"), [(JRef (VDec (mkBD (-2718281828459045) 18)) (txt "java.math.BigDecimal") 1)], (txt "-2.71828183e-03"));
  ((txt "%.16f"), [(JRef (VDec (mkBD (-2718281828459045) 18)) (txt "java.math.BigDecimal") 1)], (txt "-0.0027182818284590"));
  ((txt "%.16e"), [(JRef (VDec (mkBD (-2718281828459045) 18)) (txt "java.math.BigDecimal") 1)], (txt "-2.7182818284590450e-03"));
  ((txt "%.1f"), [(JRef (VDec (mkBD 9223372036854775807 0)) (txt "java.math.BigDecimal") 1)], (txt "9223372036854775807.0"));
  ((txt "%.1e"), [(JRef (VDec (mkBD 9223372036854775807 0)) (txt "java.math.BigDecimal") 1)], (txt "9.2e+18"));
  ((txt "%.3f"), [(JRef (VDec (mkBD 9223372036854775807 0)) (txt "java.math.BigDecimal") 1)], (txt "9223372036854775807.000"));
  ((txt "%.3e"), [(JRef (VDec (mkBD 9223372036854775807 0)) (txt "java.math.BigDecimal") 1)], (txt "9.223e+18"));
  ((txt "%.5f"), [(JRef (VDec (mkBD 9223372036854775807 0)) (txt "java.math.BigDecimal") 1)], (txt "9223372036854775807.00000"));
  ((txt "%.5e"), [(JRef (VDec (mkBD 9223372036854775807 0)) (txt "java.math.BigDecimal") 1)], (txt "9.22337e+18"));
  ((txt "%.8f"), [(JRef (VDec (mkBD 9223372036854775807 0)) (txt "java.math.BigDecimal") 1)], (txt "9223372036854775807.00000000"));
  ((txt "%.8e"), [(JRef (VDec (mkBD 9223372036854775807 0)) (txt "java.math.BigDecimal") 1)], (txt "9.22337204e+18"));
  ((txt "%.16f"), [(JRef (VDec (mkBD 9223372036854775807 0)) (txt "java.math.BigDecimal") 1)], (txt "9223372036854775807.0000000000000000"));
  ((txt "%.16e"), [(JRef (VDec (mkBD 9223372036854775807 0)) (txt "java.math.BigDecimal") 1)], (txt "9.2233720368547758e+18"));
  ((txt "%.1f"), [(JRef (VDec (mkBD (-9223372036854775808) 0)) (txt "java.math.BigDecimal") 1)], (txt "-9223372036854775808.0"));
  ((txt "%.1e"), [(JRef (VDec (mkBD (-9223372036854775808) 0)) (txt "java.math.BigDecimal") 1)], (txt "-9.2e+18"));
  ((txt "%.3f"), [(JRef (VDec (mkBD (-9223372036854775808) 0)) (txt "java.math.BigDecimal") 1)], (txt "-9223372036854775808.000"));
  ((txt "%.3e"), [(JRef (VDec (mkBD (-9223372036854775808) 0)) (txt "java.math.BigDecimal") 1)], (txt "-9.223e+18"));
  ((txt "%.5f"), [(JRef (VDec (mkBD (-9223372036854775808) 0)) (txt "java.math.BigDecimal") 1)], (txt "-9223372036854775808.00000"));
  ((txt "%.5e"), [(JRef (VDec (mkBD (-9223372036854775808) 0)) (txt "java.math.BigDecimal") 1)], (txt "-9.22337e+18"));
  ((txt "%.8f"), [(JRef (VDec (mkBD (-9223372036854775808) 0)) (txt "java.math.BigDecimal") 1)], (txt "-9223372036854775808.00000000"));
  ((txt "%.8e"), [(JRef (VDec (mkBD (-9223372036854775808) 0)) (txt "java.math.BigDecimal") 1)], (txt "-9.22337204e+18"));
  ((txt "%.16f"), [(JRef (VDec (mkBD (-9223372036854775808) 0)) (txt "java.math.BigDecimal") 1)], (txt "-9223372036854775808.0000000000000000"));
  ((txt "%.16e"), [(JRef (VDec (mkBD (-9223372036854775808) 0)) (txt "java.math.BigDecimal") 1)], (txt "-9.2233720368547758e+18"));
  ((txt "%.1f"), [(JRef (VDec (mkBD 4656612875245796924105750827167998 43)) (txt "java.math.BigDecimal") 1)], (txt "0.0"));
  ((txt "%.1e"), [(JRef (VDec (mkBD 4656612875245796924105750827167998 43)) (txt "java.math.BigDecimal") 1)], (txt "4.7e-10"));
  ((txt "%.3f"), [(JRef (VDec (mkBD 4656612875245796924105750827167998 43)) (txt "java.math.BigDecimal") 1)], (txt "0.000"));
  ((txt "%.3e"), [(JRef (VDec (mkBD 4656612875245796924105750827167998 43)) (txt "java.math.BigDecimal") 1)], (txt "4.657e-10"));
  ((txt "%.5f"), [(JRef (VDec (mkBD 4656612875245796924105750827167998 43)) (txt "java.math.BigDecimal") 1)], (txt "0.00000"));
  ((txt "%.5e"), [(JRef (VDec (mkBD 4656612875245796924105750827167998 43)) (txt "java.math.BigDecimal") 1)], (txt "4.65661e-10"));
  ((txt "%.8f"), [(JRef (VDec (mkBD 4656612875245796924105750827167998 43)) (txt "java.math.BigDecimal") 1)], (txt "0.00000000"));
  ((txt "%.8e"), [(JRef (VDec (mkBD 4656612875245796924105750827167998 43)) (txt "java.math.BigDecimal") 1)], (txt "4.65661288e-10"));
  ((txt "%.16f"), [(JRef (VDec (mkBD 4656612875245796924105750827167998 43)) (txt "java.math.BigDecimal") 1)], (txt "0.0000000004656613"));
  ((txt "%.16e"), [(JRef (VDec (mkBD 4656612875245796924105750827167998 43)) (txt "java.math.BigDecimal") 1)], (txt "4.6566128752457969e-10"));
  ((txt "%.1f"), [(JRef (VDec (mkBD (-4656612873077392578125) 31)) (txt "java.math.BigDecimal") 1)], (txt "-0.0"));
  ((txt "%.1e"), [(JRef (VDec (mkBD (-4656612873077392578125) 31)) (txt "java.math.BigDecimal") 1)], (txt "-4.7e-10"));
  ((txt "%.3f"), [(JRef (VDec (mkBD (-4656612873077392578125) 31)) (txt "java.math.BigDecimal") 1)], (txt "-0.000"));
  ((txt "%.3e"), [(JRef (VDec (mkBD (-4656612873077392578125) 31)) (txt "java.math.BigDecimal") 1)], (txt "-4.657e-10"));
  ((txt "%.5f"), [(JRef (VDec (mkBD (-4656612873077392578125) 31)) (txt "java.math.BigDecimal") 1)], (txt "-0.00000"));
  ((txt "%.5e"), [(JRef (VDec (mkBD (-4656612873077392578125) 31)) (txt "java.math.BigDecimal") 1)], (txt "-4.65661e-10"));
  ((txt "%.8f"), [(JRef (VDec (mkBD (-4656612873077392578125) 31)) (txt "java.math.BigDecimal") 1)], (txt "-0.00000000"));
  ((txt "%.8e"), [(JRef (VDec (mkBD (-4656612873077392578125) 31)) (txt "java.math.BigDecimal") 1)], (txt "-4.65661287e-10"));
  ((txt "%.16f"), [(JRef (VDec (mkBD (-4656612873077392578125) 31)) (txt "java.math.BigDecimal") 1)], (txt "-0.0000000004656613"));
  ((txt "%.16e"), [(JRef (VDec (mkBD (-4656612873077392578125) 31)) (txt "java.math.BigDecimal") 1)], (txt "-4.6566128730773926e-10"));
  ((txt "%.2f"), [(JRef (VDec (mkBD 1235 3)) (txt "java.math.BigDecimal") 1)], (txt "1.24"));
  ((txt "%.2f"), [(JRef (VDec (mkBD 1234 3)) (txt "java.math.BigDecimal") 1)], (txt "1.23"));
  ((txt "%.5f"), [(JRef (VDec (mkBD 1235 6)) (txt "java.math.BigDecimal") 1)], (txt "0.00124"))].
Example layouts_pass : filter (fun v => negb (passes v)) layouts = [].
Proof. vm_compute. reflexivity. Qed.

(** calls that throw a PrintfException: MoreFastPrintfTest.java, FastPrintfImplTest.java, FastPrintfTest.java, DefaultAppenderTest.java, BigIntegerWrapperTest.java *)
Definition failing : list (list Z * list jobject) := [
  ((txt "%d %d"), [(JRef (VInt 1) (txt "java.lang.Integer") 1)]);
  ((txt "A: %d, B: %s"), [(JRef (VInt 123) (txt "java.lang.Integer") 1)]);
  ((txt "%a"), [(JRef (VDec (mkBD 37415926 7)) (txt "java.math.BigDecimal") 1)]);
  ((txt "%d"), []);
  ((txt "%*d"), []);
  ((txt "%.*d"), [(JRef (VInt 123) (txt "java.lang.Integer") 1)]);
  ((txt "%x"), [(JRef (VBig (-1)) (txt "java.math.BigInteger") 1)]);
  ((txt "%o"), [(JRef (VBig (-1)) (txt "java.math.BigInteger") 1)]);
  ((txt "%u"), [(JRef (VBig (-1)) (txt "java.math.BigInteger") 1)])].
Example failing_pass : filter (fun v => match call (fst v) (snd v) with Err (Printf _) => false | _ => true end) failing = [].
Proof. vm_compute. reflexivity. Qed.

(** ** Compiler: CompilerTest.java, MoreCompilerTest.java *)
Inductive part := Fix (t : list Z) | Dir (s : spec) (f : flags) (w p : Z) (d : option (list Z)).
Definition shows (a : appender) : part :=
  match a with Fixed t => Fix t | Default s c => Dir s (c_flags c) (c_width c) (c_prec c) (c_dtf c) end.
Definition compiled : list (list Z * list part) := [
  ([67; 104; 97; 114; 97; 99; 116; 101; 114; 115; 58; 32; 37; 99; 32; 37; 99; 32; 10], [(Fix (txt "Characters: ")); (Dir Sc (mkFlags false false false false false) UNSET UNSET None); (Fix (txt " ")); (Dir Sc (mkFlags false false false false false) UNSET UNSET None); (Fix [32; 10])]);
  ([68; 101; 99; 105; 109; 97; 108; 115; 58; 32; 37; 100; 32; 37; 100; 10], [(Fix (txt "Decimals: ")); (Dir Sd (mkFlags false false false false false) UNSET UNSET None); (Fix (txt " ")); (Dir Sd (mkFlags false false false false false) UNSET UNSET None); (Fix [10])]);
  ([80; 114; 101; 99; 101; 100; 105; 110; 103; 32; 119; 105; 116; 104; 32; 122; 101; 114; 111; 115; 58; 32; 37; 48; 49; 48; 100; 32; 10], [(Fix (txt "Preceding with zeros: ")); (Dir Sd (mkFlags false false false false true) 10 UNSET None); (Fix [32; 10])]);
  ([83; 111; 109; 101; 32; 100; 105; 102; 102; 101; 114; 101; 110; 116; 32; 114; 97; 100; 105; 99; 101; 115; 58; 32; 37; 100; 32; 37; 120; 32; 37; 111; 32; 37; 35; 120; 32; 37; 35; 111; 32; 10], [(Fix (txt "Some different radices: ")); (Dir Sd (mkFlags false false false false false) UNSET UNSET None); (Fix (txt " ")); (Dir Sx (mkFlags false false false false false) UNSET UNSET None); (Fix (txt " ")); (Dir So (mkFlags false false false false false) UNSET UNSET None); (Fix (txt " ")); (Dir Sx (mkFlags false true false false false) UNSET UNSET None); (Fix (txt " ")); (Dir So (mkFlags false true false false false) UNSET UNSET None); (Fix [32; 10])]);
  ([102; 108; 111; 97; 116; 115; 58; 32; 37; 52; 46; 50; 102; 32; 37; 43; 46; 48; 101; 32; 37; 69; 32; 10], [(Fix (txt "floats: ")); (Dir Sf (mkFlags false false false false false) 4 2 None); (Fix (txt " ")); (Dir Se (mkFlags false false true false false) UNSET 0 None); (Fix (txt " ")); (Dir SE (mkFlags false false false false false) UNSET UNSET None); (Fix [32; 10])]);
  ([87; 105; 100; 116; 104; 32; 116; 114; 105; 99; 107; 58; 32; 37; 42; 100; 32; 10], [(Fix (txt "Width trick: ")); (Dir Sd (mkFlags false false false false false) PRECEDING UNSET None); (Fix [32; 10])]);
  ((txt "%%%%"), [(Fix (txt "%")); (Fix (txt "%"))]);
  ((txt "Date time: %16t{yyyy-MM-dd HH:mm:ss}"), [(Fix (txt "Date time: ")); (Dir St (mkFlags false false false false false) 16 UNSET (Some (txt "yyyy-MM-dd HH:mm:ss")))]);
  ((txt "%t{yyyy-MM-dd}"), [(Dir St (mkFlags false false false false false) UNSET UNSET (Some (txt "yyyy-MM-dd")))]);
  ((txt "%t{'Date is 'yyyy-MM-dd}"), [(Dir St (mkFlags false false false false false) UNSET UNSET (Some (txt "'Date is 'yyyy-MM-dd")))]);
  ((txt "%t{yyyy-MM-dd'T'HH:mm:ss'}'}"), [(Dir St (mkFlags false false false false false) UNSET UNSET (Some (txt "yyyy-MM-dd'T'HH:mm:ss'}'")))]);
  ((txt "%.s"), [(Dir Ss (mkFlags false false false false false) UNSET 0 None)]);
  ((txt "%#s"), [(Dir Ss (mkFlags false true false false false) UNSET UNSET None)]);
  ((txt "%+c"), [(Dir Sc (mkFlags false false true false false) UNSET UNSET None)]);
  ((txt "%.5c"), [(Dir Sc (mkFlags false false false false false) UNSET 5 None)]);
  ((txt "Date: %t{yyyy-MM-dd}"), [(Fix (txt "Date: ")); (Dir St (mkFlags false false false false false) UNSET UNSET (Some (txt "yyyy-MM-dd")))]);
  ((txt "Date: %T{HH:mm:ss}"), [(Fix (txt "Date: ")); (Dir ST (mkFlags false false false false false) UNSET UNSET (Some (txt "HH:mm:ss")))]);
  ((txt "Log: %-25.20t{'['HH:mm:ss.SSS']'}"), [(Fix (txt "Log: ")); (Dir St (mkFlags true false false false false) 25 20 (Some (txt "'['HH:mm:ss.SSS']'")))]);
  ((txt "%t"), [(Dir St (mkFlags false false false false false) UNSET UNSET None)]);
  ((txt "%s{this-is-literal} and %d{also-literal}"), [(Dir Ss (mkFlags false false false false false) UNSET UNSET None); (Fix (txt "{this-is-literal} and ")); (Dir Sd (mkFlags false false false false false) UNSET UNSET None); (Fix (txt "{also-literal}"))]);
  ((txt "%t{HH:mm}s"), [(Dir St (mkFlags false false false false false) UNSET UNSET (Some (txt "HH:mm"))); (Fix (txt "s"))]);
  ((txt "%t{yyyy-MM-dd'T''{'HH:mm:ss'}'}"), [(Dir St (mkFlags false false false false false) UNSET UNSET (Some (txt "yyyy-MM-dd'T''{'HH:mm:ss'}'")))]);
  ((txt "Event at %t{HH:mm} on %t{yyyy-MM-dd} for user %s (ID: %04d)%%"), [(Fix (txt "Event at ")); (Dir St (mkFlags false false false false false) UNSET UNSET (Some (txt "HH:mm"))); (Fix (txt " on ")); (Dir St (mkFlags false false false false false) UNSET UNSET (Some (txt "yyyy-MM-dd"))); (Fix (txt " for user ")); (Dir Ss (mkFlags false false false false false) UNSET UNSET None); (Fix (txt " (ID: ")); (Dir Sd (mkFlags false false false false true) 4 UNSET None); (Fix (txt ")")); (Fix (txt "%"))]);
  ((txt "%t{HH:mm}"), [(Dir St (mkFlags false false false false false) UNSET UNSET (Some (txt "HH:mm")))]);
  ((txt "%t{HH:mm '%% progress'}"), [(Dir St (mkFlags false false false false false) UNSET UNSET (Some (txt "HH:mm '%% progress'")))]);
  ((txt "%*.*t{yyyy}"), [(Dir St (mkFlags false false false false false) PRECEDING PRECEDING (Some (txt "yyyy")))])].
Example compiled_pass : map (fun v => match compile (fun _ => true) (fst v) with Ok ds => map shows ds | Err _ => [] end) compiled = map snd compiled.
Proof. vm_compute. reflexivity. Qed.

(** invalid format strings, with the kind of error; two date patterns are refused by DateTimeFormatter *)
Definition invalid : list (list Z * syn) := [
  ((txt "%{yyyy-MM-dd"), BadSpecifier);
  ((txt "%t{J}"), InvalidDate);
  ((txt "%"), UnexpectedEnd);
  ((txt "hello %10"), UnexpectedEnd);
  ((txt "%10."), UnexpectedEnd);
  ((txt "%--d"), DuplicateFlag);
  ((txt "%99999999999d"), BadWidth);
  ((txt "%t{}"), EmptyDate);
  ((txt "%t{yyyy-MM-dd"), UnclosedDate);
  ((txt "%t{YYYY-MM-dd-R}"), InvalidDate);
  ((txt "%t{HH:mm"), UnclosedDate);
  ((txt "Unknown specifier: %Q"), BadSpecifier)].
Definition dates (p : list Z) : bool := negb (same p (txt "J") || same p (txt "YYYY-MM-dd-R")).
Example invalid_pass : map (fun v => match compile dates (fst v) with Err (Syntax k _) => Some k | _ => None end) invalid = map (fun v => Some (snd v)) invalid.
Proof. vm_compute. reflexivity. Qed.

(** ** DoubleToDecimalTest.java: bits and Double.toString; the last 60 are the first of its random values *)
Definition doubles : list (Z * list Z) := [
  (9221120237041090560, (txt "NaN"));
  (9218868437227405312, (txt "Infinity"));
  ((-4503599627370496), (txt "-Infinity"));
  (0, (txt "0.0"));
  ((-9223372036854775808), (txt "-0.0"));
  (9218868437227405311, (txt "1.7976931348623157E308"));
  (1, (txt "4.9E-324"));
  (4503599627370496, (txt "2.2250738585072014E-308"));
  (5183643170566569984, (txt "3.4028234663852886E38"));
  (3936146074321813504, (txt "1.401298464324817E-45"));
  (4039728865751334912, (txt "1.1754943508222875E-38"));
  (4746794007244308480, (txt "2.147483647E9"));
  ((-4476578029606273024), (txt "-2.147483648E9"));
  (4890909195324358656, (txt "9.223372036854776E18"));
  ((-4332462841530417152), (txt "-9.223372036854776E18"));
  (4607182418800017408, (txt "1.0"));
  ((-4616189618054758400), (txt "-1.0"));
  (4638387860618067575, (txt "123.456"));
  ((-4584984176236708233), (txt "-123.456"));
  (4614256656552045848, (txt "3.141592653589793"));
  (4613303445314885481, (txt "2.718281828459045"));
  (4757770256808673280, (txt "1.23456E10"));
  ((-4764536032713792267), (txt "-1.23456E-10"));
  (4906019910204099648, (txt "1.0E20"));
  ((-4317352126650676160), (txt "-1.0E20"));
  (4711630319185297408, (txt "9999999.0"));
  (4711630319722168320, (txt "1.0E7"));
  (4547007122018943789, (txt "1.0E-4"));
  (4547007122018943788, (txt "9.999999999999999E-5"));
  ((-9223372036854775807), (txt "-4.9E-324"));
  (4503599627370495, (txt "2.225073858507201E-308"));
  (4607182418800017408, (txt "1.0"));
  (4607182418800017409, (txt "1.0000000000000002"));
  (4607182418800017407, (txt "0.9999999999999999"));
  (4621819117588971520, (txt "10.0"));
  (4621819117588971521, (txt "10.000000000000002"));
  (4621819117588971519, (txt "9.999999999999998"));
  (4652007308841189376, (txt "1000.0"));
  (4652007308841189377, (txt "1000.0000000000001"));
  (4652007308841189375, (txt "999.9999999999999"));
  (4756540486875873280, (txt "1.0E10"));
  (4756540486875873281, (txt "1.0000000000000002E10"));
  (4756540486875873279, (txt "9.999999999999998E9"));
  (4906019910204099648, (txt "1.0E20"));
  (4906019910204099649, (txt "1.0000000000000002E20"));
  (4906019910204099647, (txt "9.999999999999998E19"));
  (4503599627370496, (txt "2.2250738585072014E-308"));
  (4503599627370497, (txt "2.225073858507202E-308"));
  (4503599627370495, (txt "2.225073858507201E-308"));
  (9218868437227405311, (txt "1.7976931348623157E308"));
  (9218868437227405312, (txt "Infinity"));
  (9218868437227405310, (txt "1.7976931348623155E308"));
  (6674089274190705457, (txt "1.4480142912078229E138"));
  ((-1236052134575208584), (txt "-9.128127626929109E225"));
  ((-3078921119283744887), (txt "-6.012265398322256E102"));
  (6022414958441676900, (txt "4.154328384070175E94"));
  (4344647195749500666, (txt "2.958519052733972E-18"));
  (6440041613324510652, (txt "3.2664357513296955E122"));
  (8265573421575953197, (txt "3.6215546956823634E244"));
  ((-6674900032466492448), (txt "-2.518477172535021E-138"));
  (2919502189498201214, (txt "1.6369005227041226E-113"));
  ((-4263262838430303025), (txt "-4.126932281939352E23"));
  ((-1013215829982866721), (txt "-6.807318107283216E240"));
  (1209830369222860200, (txt "8.634116259791345E-228"));
  ((-3500614978637125381), (txt "-3.8612366459259316E74"));
  (8815982370389166190, (txt "2.238254451272819E281"));
  (6135136337149060510, (txt "1.4266324511315877E102"));
  ((-5671795673574091253), (txt "-2.9129773192965016E-71"));
  ((-1545304719862780077), (txt "-1.8795899934479754E205"));
  (6472265773460362391, (txt "4.787934830611628E124"));
  (1664694551407375950, (txt "2.1891926466386608E-197"));
  ((-8201417328859773479), (txt "-2.3029696859213297E-240"));
  (1895862094853980300, (txt "5.9222269791496655E-182"));
  ((-1026407405350174195), (txt "-9.099949209551406E239"));
  (3582048408897295416, (txt "3.1864950274821755E-69"));
  (4676544319411765991, (txt "45922.24889028613"));
  ((-5606549786281302960), (txt "-6.503678816158072E-67"));
  (873164914509912792, (txt "2.6279755427909786E-250"));
  (3702657416359142280, (txt "3.594112393846388E-61"));
  ((-2764320561543193457), (txt "-6.333090837290822E123"));
  (7342153465701196142, (txt "6.828127274104506E182"));
  (4273523332437800642, (txt "5.06313941324055E-23"));
  (2877948439254078926, (txt "2.621501513486231E-116"));
  (1229275927883548717, (txt "1.6497468914339685E-226"));
  (1894171484837314135, (txt "4.7913996964176853E-182"));
  ((-7535015702201045030), (txt "-8.092636581908164E-196"));
  (6968704615890252414, (txt "7.486821230055246E157"));
  (9143290242159779235, (txt "1.6708944549197644E303"));
  ((-7435625448598974047), (txt "-3.5183143426700803E-189"));
  ((-1631773694551398667), (txt "-3.2023668499066418E199"));
  (1654016379873652592, (txt "4.232094387266035E-198"));
  (3493299211968865238, (txt "3.68825119997177E-75"));
  ((-8730419922316402040), (txt "-1.0523254392255912E-275"));
  ((-701297860731463640), (txt "-5.040545645748053E261"));
  (8850753136911882592, (txt "4.69147728405611E283"));
  ((-8954055381677511378), (txt "-1.1545999803473353E-290"));
  ((-3600730930140391064), (txt "-7.964632407193687E67"));
  (8915619276898549583, (txt "1.0142191930189402E288"));
  (34763064450124911, (txt "2.4478673522743258E-306"));
  ((-7207119165969726438), (txt "-6.865602184435062E-174"));
  ((-7658080728774377404), (txt "-4.989944889245342E-204"));
  ((-5661544056901251958), (txt "-1.3653693753747922E-70"));
  ((-6626094279135658848), (txt "-4.709472778768551E-135"));
  (2276608449961011082, (txt "1.7580985372284497E-156"));
  (641677532283622210, (txt "9.186263345396915E-266"));
  ((-3232278498323453766), (txt "-3.36354815151551E92"));
  (7822485531911573084, (txt "8.362717619597193E214"));
  (3356311166389917555, (txt "2.575399135747166E-84"));
  (7445038319791579437, (txt "5.037363818488726E189"));
  (5374410395986528777, (txt "2.033599256498681E51"));
  ((-5970305719089840402), (txt "-3.2543002147344866E-91"));
  ((-6099763786001518257), (txt "-7.225326220597971E-100"))].
Example doubles_pass : filter (fun v => negb (match d2d_toString (fst v) with Ok t => same t (snd v) | Err _ => false end)) doubles = [].
Proof. vm_compute. reflexivity. Qed.

(** ** MultiplyHighTest.java: factors and the high 64 bits; the last 40 are the first of its random values *)
Definition products : list (Z * Z * Z) := [
  (0, 0, 0);
  (0, 1, 0);
  (0, (-1), 0);
  (0, 100, 0);
  (0, (-100), 0);
  (0, 2147483647, 0);
  (0, (-2147483648), 0);
  (0, 9223372036854775807, 0);
  (0, (-9223372036854775808), 0);
  (0, 4611686018427387904, 0);
  (0, (-4611686018427387904), 0);
  (1, 0, 0);
  (1, 1, 0);
  (1, (-1), (-1));
  (1, 100, 0);
  (1, (-100), (-1));
  (1, 2147483647, 0);
  (1, (-2147483648), (-1));
  (1, 9223372036854775807, 0);
  (1, (-9223372036854775808), (-1));
  (1, 4611686018427387904, 0);
  (1, (-4611686018427387904), (-1));
  ((-1), 0, 0);
  ((-1), 1, (-1));
  ((-1), (-1), 0);
  ((-1), 100, (-1));
  ((-1), (-100), 0);
  ((-1), 2147483647, (-1));
  ((-1), (-2147483648), 0);
  ((-1), 9223372036854775807, (-1));
  ((-1), (-9223372036854775808), 0);
  ((-1), 4611686018427387904, (-1));
  ((-1), (-4611686018427387904), 0);
  (100, 0, 0);
  (100, 1, 0);
  (100, (-1), (-1));
  (100, 100, 0);
  (100, (-100), (-1));
  (100, 2147483647, 0);
  (100, (-2147483648), (-1));
  (100, 9223372036854775807, 49);
  (100, (-9223372036854775808), (-50));
  (100, 4611686018427387904, 25);
  (100, (-4611686018427387904), (-25));
  ((-100), 0, 0);
  ((-100), 1, (-1));
  ((-100), (-1), 0);
  ((-100), 100, (-1));
  ((-100), (-100), 0);
  ((-100), 2147483647, (-1));
  ((-100), (-2147483648), 0);
  ((-100), 9223372036854775807, (-50));
  ((-100), (-9223372036854775808), 50);
  ((-100), 4611686018427387904, (-25));
  ((-100), (-4611686018427387904), 25);
  (2147483647, 0, 0);
  (2147483647, 1, 0);
  (2147483647, (-1), (-1));
  (2147483647, 100, 0);
  (2147483647, (-100), (-1));
  (2147483647, 2147483647, 0);
  (2147483647, (-2147483648), (-1));
  (2147483647, 9223372036854775807, 1073741823);
  (2147483647, (-9223372036854775808), (-1073741824));
  (2147483647, 4611686018427387904, 536870911);
  (2147483647, (-4611686018427387904), (-536870912));
  ((-2147483648), 0, 0);
  ((-2147483648), 1, (-1));
  ((-2147483648), (-1), 0);
  ((-2147483648), 100, (-1));
  ((-2147483648), (-100), 0);
  ((-2147483648), 2147483647, (-1));
  ((-2147483648), (-2147483648), 0);
  ((-2147483648), 9223372036854775807, (-1073741824));
  ((-2147483648), (-9223372036854775808), 1073741824);
  ((-2147483648), 4611686018427387904, (-536870912));
  ((-2147483648), (-4611686018427387904), 536870912);
  (9223372036854775807, 0, 0);
  (9223372036854775807, 1, 0);
  (9223372036854775807, (-1), (-1));
  (9223372036854775807, 100, 49);
  (9223372036854775807, (-100), (-50));
  (9223372036854775807, 2147483647, 1073741823);
  (9223372036854775807, (-2147483648), (-1073741824));
  (9223372036854775807, 9223372036854775807, 4611686018427387903);
  (9223372036854775807, (-9223372036854775808), (-4611686018427387904));
  (9223372036854775807, 4611686018427387904, 2305843009213693951);
  (9223372036854775807, (-4611686018427387904), (-2305843009213693952));
  ((-9223372036854775808), 0, 0);
  ((-9223372036854775808), 1, (-1));
  ((-9223372036854775808), (-1), 0);
  ((-9223372036854775808), 100, (-50));
  ((-9223372036854775808), (-100), 50);
  ((-9223372036854775808), 2147483647, (-1073741824));
  ((-9223372036854775808), (-2147483648), 1073741824);
  ((-9223372036854775808), 9223372036854775807, (-4611686018427387904));
  ((-9223372036854775808), (-9223372036854775808), 4611686018427387904);
  ((-9223372036854775808), 4611686018427387904, (-2305843009213693952));
  ((-9223372036854775808), (-4611686018427387904), 2305843009213693952);
  (4611686018427387904, 0, 0);
  (4611686018427387904, 1, 0);
  (4611686018427387904, (-1), (-1));
  (4611686018427387904, 100, 25);
  (4611686018427387904, (-100), (-25));
  (4611686018427387904, 2147483647, 536870911);
  (4611686018427387904, (-2147483648), (-536870912));
  (4611686018427387904, 9223372036854775807, 2305843009213693951);
  (4611686018427387904, (-9223372036854775808), (-2305843009213693952));
  (4611686018427387904, 4611686018427387904, 1152921504606846976);
  (4611686018427387904, (-4611686018427387904), (-1152921504606846976));
  ((-4611686018427387904), 0, 0);
  ((-4611686018427387904), 1, (-1));
  ((-4611686018427387904), (-1), 0);
  ((-4611686018427387904), 100, (-25));
  ((-4611686018427387904), (-100), 25);
  ((-4611686018427387904), 2147483647, (-536870912));
  ((-4611686018427387904), (-2147483648), 536870912);
  ((-4611686018427387904), 9223372036854775807, (-2305843009213693952));
  ((-4611686018427387904), (-9223372036854775808), 2305843009213693952);
  ((-4611686018427387904), 4611686018427387904, (-1152921504606846976));
  ((-4611686018427387904), (-4611686018427387904), 1152921504606846976);
  (9223372036854775807, 2, 0);
  ((-9223372036854775808), 2, (-1));
  ((-5025562857975149833), (-5843495416241995736), 1591980319522494394);
  (5694868678511409995, 5111195811822994797, 1577925558146266159);
  ((-6169532649852302182), (-1782466964123969572), 596147921199760048);
  (6802844026563419272, 5086654115216342560, 1875871125257883510);
  (8552898714322622292, (-4004755535478349341), (-1856819194417392501));
  ((-1488139573943419793), 8051837266862454915, (-649559490384411719));
  ((-4613416830416070574), 7130900098642117381, (-1783394099231711719));
  (3272055439932147596, (-7482923245497525943), (-1327309557404250236));
  (3869528714570848026, (-3210362905434573697), (-673430031724512099));
  (3176860285874836986, (-7610621359446545191), (-1310685541635231045));
  ((-4588066762141701118), (-7912908803613548926), 1968095493093542199);
  ((-7747173299880867347), (-4565385657661118002), 1917348326044118242);
  (579564241196435126, 6602457318652576433, 207437591730367064);
  ((-3361053196040192472), 7704975138223047541, (-1403870038542095377));
  ((-478957009993612106), (-5286721520629762393), 137266084576871221);
  (8865034956231574663, 5380112710085299282, 2585545018285753067);
  ((-924917377818437675), (-3311341186503823761), 166030221650243406);
  ((-6702724865295600521), 6809089882916169883, (-2474119871012936200));
  (6645529480803663035, 8018081796930885386, 2888553055654995686);
  (8436011436776032633, 8719562077786624187, 3987604810798154151);
  (8651938460229599588, (-3185338829648084755), (-1493995656847260160));
  (2786040548068544931, (-3064627001040919599), (-462855399060606085));
  (8491153766255516575, 5175639579568511616, 2382379857021387336);
  (3614901514407423006, 3307011078434949678, 648055792817893652);
  ((-2477641376863858799), 8976013293400652448, (-1205597142029263677));
  (7765557456844232617, (-6772356965118744613), (-2850970714438551908));
  ((-5536630875295603153), 5816783378753256221, (-1745857280885190338));
  ((-7902210446970826476), 6843968935032545040, (-2931817268188632246));
  ((-2364603267878439993), (-3583631517115538627), 459369239492003229);
  ((-7079607983502818874), 6905711326835401406, (-2650317521936447741));
  ((-5584775193021092232), (-1685763405318446537), 510367011636649666);
  (3618275030082862648, (-3521025573995865849), (-690638893441885304));
  ((-6863419716327549772), 8548207711936469433, (-3180503676688659875));
  (5636940461969593464, (-8487172994898555456), (-2593503150014624099));
  ((-6731013670330063931), 2329045896118581347, (-849843186578549841));
  (9174061941632264871, 503857395356251382, 250581833643784110);
  (673020552662408774, 8925343867316266058, 325636862433862968);
  ((-6363141803348005509), 7300599417655508326, (-2518317008050735274));
  ((-1103623001814883674), 7094817657563592054, (-424465365230981747));
  ((-6525868206941090114), (-4234161778822925565), 1497911047340132772)].
Example products_pass : filter (fun v => let '(x, y, h) := v in negb ((slowMultiplyHigh x y =? h) && (multiplyHigh x y =? h))) products = [].
Proof. vm_compute. reflexivity. Qed.

(** ** UtilsTest.java *)
Definition int_sizes : list (Z * Z) := [
  (1, 1);
  (0, 1);
  ((-1), 2);
  (0, 1);
  (10, 2);
  (9, 1);
  ((-10), 3);
  ((-9), 2);
  (100, 3);
  (99, 2);
  ((-100), 4);
  ((-99), 3);
  (1000, 4);
  (999, 3);
  ((-1000), 5);
  ((-999), 4);
  (10000, 5);
  (9999, 4);
  ((-10000), 6);
  ((-9999), 5);
  (100000, 6);
  (99999, 5);
  ((-100000), 7);
  ((-99999), 6);
  (1000000, 7);
  (999999, 6);
  ((-1000000), 8);
  ((-999999), 7);
  (10000000, 8);
  (9999999, 7);
  ((-10000000), 9);
  ((-9999999), 8);
  (100000000, 9);
  (99999999, 8);
  ((-100000000), 10);
  ((-99999999), 9);
  (9, 1);
  (99, 2);
  (999999999, 9);
  (1000000000, 10);
  (2147483647, 10);
  ((-9), 2);
  ((-99), 3);
  ((-2147483648), 11);
  (0, 1)].
Definition long_sizes : list (Z * Z) := [
  (1, 1);
  (0, 1);
  ((-1), 2);
  (0, 1);
  (10, 2);
  (9, 1);
  ((-10), 3);
  ((-9), 2);
  (100, 3);
  (99, 2);
  ((-100), 4);
  ((-99), 3);
  (1000, 4);
  (999, 3);
  ((-1000), 5);
  ((-999), 4);
  (10000, 5);
  (9999, 4);
  ((-10000), 6);
  ((-9999), 5);
  (100000, 6);
  (99999, 5);
  ((-100000), 7);
  ((-99999), 6);
  (1000000, 7);
  (999999, 6);
  ((-1000000), 8);
  ((-999999), 7);
  (10000000, 8);
  (9999999, 7);
  ((-10000000), 9);
  ((-9999999), 8);
  (100000000, 9);
  (99999999, 8);
  ((-100000000), 10);
  ((-99999999), 9);
  (1000000000, 10);
  (999999999, 9);
  ((-1000000000), 11);
  ((-999999999), 10);
  (10000000000, 11);
  (9999999999, 10);
  ((-10000000000), 12);
  ((-9999999999), 11);
  (100000000000, 12);
  (99999999999, 11);
  ((-100000000000), 13);
  ((-99999999999), 12);
  (1000000000000, 13);
  (999999999999, 12);
  ((-1000000000000), 14);
  ((-999999999999), 13);
  (10000000000000, 14);
  (9999999999999, 13);
  ((-10000000000000), 15);
  ((-9999999999999), 14);
  (100000000000000, 15);
  (99999999999999, 14);
  ((-100000000000000), 16);
  ((-99999999999999), 15);
  (1000000000000000, 16);
  (999999999999999, 15);
  ((-1000000000000000), 17);
  ((-999999999999999), 16);
  (10000000000000000, 17);
  (9999999999999999, 16);
  ((-10000000000000000), 18);
  ((-9999999999999999), 17);
  (100000000000000000, 18);
  (99999999999999999, 17);
  ((-100000000000000000), 19);
  ((-99999999999999999), 18);
  (999999999999999999, 18);
  (1000000000000000000, 19);
  (9223372036854775807, 19);
  ((-9223372036854775808), 20);
  (0, 1);
  ((-9), 2)].
Example sizes_pass : (map (fun v => stringSizeI (fst v)) int_sizes, map (fun v => stringSizeL (fst v)) long_sizes) = (map snd int_sizes, map snd long_sizes).
Proof. vm_compute. reflexivity. Qed.
Example utils_pass :
  (map toUpperCaseStr [txt "Mixed Case 123"; txt "ALREADY UPPER"; txt "123456$#"; []], map toUpperCase [97; 122; 65; 49; 32],
   map isLowerCase [97; 122; 65; 90; 53; 36], map isDigit [48; 57; 97; 32], map isNotDigit [48; 57; 97; 32]) =
  ([txt "MIXED CASE 123"; txt "ALREADY UPPER"; txt "123456$#"; []], [65; 90; 65; 49; 32],
   [true; true; false; false; false; false], [true; true; false; false], [false; false; true; true]).
Proof. vm_compute. reflexivity. Qed.
Example join_pass :
  (joinArray [] (txt ",") [txt "1"; txt "2"; txt "3"], joinArray [] (txt ",") [], joinArray (txt "Prefix:") (txt " ") [txt "one"; txt "two"]) =
  (txt "1,2,3", [], txt "Prefix:one two").
Proof. vm_compute. reflexivity. Qed.
Example instant_pass : map longToInstant [100; 4294967295; 4294967296; 0; -1] =
  [Ok (ofEpochSecond 100); Ok (ofEpochSecond 4294967295); Ok (ofEpochMilli 4294967296); Ok (ofEpochSecond 0); Err IllegalArg].
Proof. vm_compute. reflexivity. Qed.
Example lenient_pass :
  (lenientFormat (txt "First: %s, Second: %s") [txt "1"; txt "two"], lenientFormat (txt "No placeholders") [],
   lenientFormat (txt "One placeholder: %s") [txt "foo"; txt "bar"; txt "123"], lenientFormat (txt "Two missing: %s, %s") [],
   lenientFormat (txt "No placeholders") [txt "arg1"; txt "arg2"]) =
  (txt "First: 1, Second: two", txt "No placeholders", txt "One placeholder: foo [bar, 123]", txt "Two missing: %s, %s",
   txt "No placeholders [arg1, arg2]").
Proof. vm_compute. reflexivity. Qed.

(** ** PrintfSyntaxExceptionTest.java *)
Example message_pass :
  (syntaxMessage [10] (txt "Unknown specifier") (txt "An error: %Q") 11, syntaxMessage [10] (txt "Terminates prematurely") (txt "%") (-1),
   syntaxMessage [10] (txt "Invalid flag") (txt "%?d") 1) =
  (txt "Unknown specifier near index 11" ++ [10] ++ txt "An error: %Q" ++ [10] ++ txt "           ^",
   txt "Terminates prematurely" ++ [10] ++ txt "%", txt "Invalid flag near index 1" ++ [10] ++ txt "%?d" ++ [10] ++ txt " ^").
Proof. vm_compute. reflexivity. Qed.

(** ** FormatContextTest.java *)
Example context_pass :
  (map (fun v => match ctx_create noFlags (fst v) (snd v) None with Ok _ => None | Err e => Some e end)
     [(10, 5); (0, 0); (65536, 65536); (UNSET, UNSET); (PRECEDING, PRECEDING); (-2, 5); (10, -2); (65537, 5); (10, 65537)]) =
  [None; None; None; None; None; Some (Printf WidthRange); Some (Printf PrecisionRange); Some (Printf WidthRange); Some (Printf PrecisionRange)].
Proof. vm_compute. reflexivity. Qed.

(** ** DoubleWrapperTest.java: the hexadecimal layouts, and the layouts of NaN and the infinities *)
Definition layoutText (r : res layout) : res (list Z * option (list Z)) :=
  let* l := r in
  let* m := s_toString (l_mant l) in
  match l_exp l with Some e => let* e := s_toString e in Ok (m, Some e) | None => Ok (m, None) end.
Definition hexed : list (Z * Z * (list Z * option (list Z))) := [
  (4638390956842811392, 0, ((txt "1.ee"), Some (txt "+6")));
  ((-4576629189687377920), 13, ((txt "1.c8c"), Some (txt "+8")));
  (0, 8, ((txt "0.0"), Some (txt "+0")));
  ((-9223372036854775808), 8, ((txt "0.0"), Some (txt "+0")));
  (9218868437227405311, 8, ((txt "1.0"), Some (txt "+1024")));
  (4638390956842811392, 1, ((txt "1.f"), Some (txt "+6")));
  (1, 8, ((txt "1.0"), Some (txt "-1074")))].
Example hexed_pass : map (fun v => let '(b, p, _) := v in layoutText (dbl_hex b p)) hexed = map (fun v => Ok (snd v)) hexed.
Proof. vm_compute. reflexivity. Qed.
Example special_pass : map (fun b => layoutText (dbl_decimal b 2)) [9221120237041090560; 9218868437227405312; -4503599627370496] =
  [Ok (txt "0", None); Ok (txt "0", None); Ok (txt "0", None)].
Proof. vm_compute. reflexivity. Qed.

(** toPatternString, FormatContextTest.java *)
Example pattern_pass :
  [toPatternString (mkCtx noFlags UNSET UNSET None) Sd; toPatternString (mkCtx noFlags 10 UNSET None) Sd;
   toPatternString (mkCtx noFlags UNSET 5 None) Ss; toPatternString (mkCtx (mkFlags true false false false false) 10 5 None) Sf;
   toPatternString (mkCtx (mkFlags false true true true true) UNSET UNSET None) Sx;
   toPatternString (mkCtx noFlags PRECEDING PRECEDING None) Sg; toPatternString (mkCtx noFlags PRECEDING UNSET None) Ss;
   toPatternString (mkCtx noFlags UNSET PRECEDING None) Sc] =
  [txt "%d"; txt "%10d"; txt "%.5s"; txt "%-10.5f"; txt "%#+ 0x"; txt "%*.*g"; txt "%*s"; txt "%.*c"].
Proof. vm_compute. reflexivity. Qed.
