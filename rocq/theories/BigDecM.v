(** Model of number/BigDecimalWrapper.java, and of the java.math.BigDecimal operations it uses.
    A BigDecimal is (unscaled, scale), value unscaled * 10^-scale, scale an int. *)
From Verif Require Import Base Digits SeqM FormatterM.

Record bigdec := mkBD { bd_u : Z; bd_s : Z }.

(** BigDecimal.abs, signum, precision (1 for zero) *)
Definition bd_abs (d : bigdec) : bigdec := mkBD (Z.abs (bd_u d)) (bd_s d).
Definition bd_precision (d : bigdec) : Z := zlen (digits 10 (Z.abs (bd_u d))).

(** RoundingMode.HALF_UP division of a magnitude by 10^k *)
Definition half_up_div (u k : Z) : Z := (u + 10 ^ k / 2) / 10 ^ k.
Definition half_up_signed (u k : Z) : Z := if u <? 0 then - half_up_div (- u) k else half_up_div u k.

(** BigDecimal.checkScale: the scale must stay an int *)
Definition checkScale (s : Z) : res Z :=
  if (int_min <=? s) && (s <=? int_max) then Ok s else Err (OtherExn 1).

(** new BigDecimal(BigInteger, int, MathContext(prec)) (HALF_UP): drop digits until at most [prec] are left *)
Fixpoint bd_round (fuel : nat) (d : bigdec) (mcp : Z) : res bigdec :=
  if (0 <? mcp) && (mcp <? bd_precision d) then
    match fuel with
    | O => Err OutOfFuel
    | S f =>
        let drop := bd_precision d - mcp in
        let* s := checkScale (bd_s d - drop) in
        bd_round f (mkBD (half_up_signed (bd_u d) drop) s) mcp
    end
  else Ok d.

(** new MathContext(int) *)
Definition mathContext (p : Z) : res Z := if p <? 0 then Err IllegalArg else Ok p.

Definition bd_new_mc (u s p : Z) : res bigdec :=
  let* mcp := mathContext p in bd_round 2 (mkBD u s) mcp.

(** 10^n as a BigInteger: these lie below 2^(2^31 - 1), and 10^646456992 is the last power of ten that does; beyond
    it an ArithmeticException. (BigInteger.pow of newer JDKs gives up earlier, from 10^536870920 on.) *)
Definition MAX_TEN : Z := 646456992.
Definition checkTen (n : Z) : res unit := if n <=? MAX_TEN then Ok tt else Err (OtherExn 1).

(** BigDecimal.setScale(newScale, HALF_UP), for a newScale below the scale; a zero takes any scale *)
Definition bd_setScale (d : bigdec) (ns : Z) : res bigdec :=
  let drop := bd_s d - ns in
  let* _ := (if bd_u d =? 0 then Ok tt else checkTen drop) in
  Ok (mkBD (half_up_signed (bd_u d) drop) ns).

(** BigDecimal.compareTo *)
Definition bd_compare (a b : bigdec) : comparison :=
  let m := Z.max (bd_s a) (bd_s b) in
  (bd_u a * 10 ^ (m - bd_s a)) ?= (bd_u b * 10 ^ (m - bd_s b)).

(** ** BigDecimalWrapper *)

(** BigDecimalWrapper.java:25-31 *)
Definition insertDot (s : list Z) : res seq :=
  let* c := jcharAt s 0 in
  let* tl := s_wrap3 s 1 (zlen s) in
  Ok (s_append (s_append (chS c) (chS (ch "."))) (Leaf tl)).

(** BigDecimalWrapper.java:33-67 *)
Definition scientificLayout0 (d : bigdec) : res layout :=
  let s := dec_text (bd_u d) in
  let length := zlen s in
  let scale := bd_s d in
  if scale =? 0 then
    if 1 <? length then
      let* m := insertDot s in
      let x := if length <? 10 then txt "+0" ++ dec_text (length - 1) else txt "+" ++ dec_text (length - 1) in
      Ok (mkLayout m (Some (wrapS x)))
    else Ok (mkLayout (wrapS s) (Some (wrapS (txt "+00"))))
  else
    let* m := (if 1 <? length then insertDot s else Ok (wrapS s)) in
    let adjusted := - scale + (length - 1) in
    let x :=
      if negb (adjusted =? 0) then
        let x := chS (if adjusted <? 0 then ch "-" else ch "+") in
        let x := if Z.abs adjusted <? 10 then s_append x (chS (ch "0")) else x in
        s_append x (wrapS (dec_text (Z.abs adjusted)))
      else wrapS (txt "+00") in
    Ok (mkLayout m (Some x)).

(** BigDecimalWrapper.java:69-96 *)
Definition decimalLayout0 (d : bigdec) : res layout :=
  let s := dec_text (bd_u d) in
  let scale := bd_s d in
  if scale =? 0 then Ok (mkLayout (wrapS s) None)
  else
    let length := zlen s in
    let pad := wrap32 (scale - length) in
    if 0 <=? pad then
      let m := wrapS s in
      let* m := (if 0 <? pad then let* z := repeated (ch "0") pad in Ok (s_prepend m z) else Ok m) in
      Ok (mkLayout (s_prepend m (wrapS (txt "0."))) None)
    else if wrap32 (- pad) <? length then
      let* a := s_wrap3 s 0 (wrap32 (- pad)) in
      let m := s_append (Leaf a) (chS (ch ".")) in
      let* b := s_wrap3 s (wrap32 (- pad)) length in
      Ok (mkLayout (s_append m (Leaf b)) None)
    else
      let* z := repeated (ch "0") (wrap32 (- scale)) in
      Ok (mkLayout (s_append (wrapS s) z) None).

(** BigDecimalWrapper.java:155-171; [v] is the stored absolute value *)
Definition bd_decimal (v : bigdec) (precision : Z) : res layout :=
  let scale := bd_s v in
  let* v := (if precision <? scale then
               let compPrec := bd_precision v in
               if compPrec <=? scale then bd_setScale v precision
               else bd_new_mc (bd_u v) scale (compPrec - (scale - precision))
             else Ok v) in
  decimalLayout0 v.

(** BigDecimalWrapper.java:139-153 *)
Definition bd_scientific (v : bigdec) (precision : Z) : res layout :=
  let origPrec := bd_precision v in
  let compPrec := if origPrec - 1 <? precision then origPrec else wrap32 (precision + 1) in
  let* v := bd_new_mc (bd_u v) (bd_s v) compPrec in
  scientificLayout0 v.

(** BigDecimalWrapper.java:113-137; equals compares unscaled value and scale *)
Definition bd_general (v : bigdec) (precision : Z) : res layout :=
  let inRange :=
    ((bd_u v =? 0) && (bd_s v =? 0)) ||
    (match bd_compare v (mkBD 1 4) with Lt => false | _ => true end) &&
    (match bd_compare v (mkBD 1 (- precision)) with Lt => true | _ => false end) in
  if inRange then
    let e := wrap32 (wrap32 (- bd_s v) + (zlen (dec_text (bd_u v)) - 1)) in
    bd_decimal v (wrap32 (wrap32 (precision - e) - 1))
  else bd_scientific v (precision - 1).

(** BigDecimalWrapper.java:10-23, 98-111, 174-176 *)
Definition bigDecForm (d : bigdec) : floatform :=
  let v := bd_abs d in
  mkFloat false false (Z.sgn (bd_u d)) (bd_general v) (bd_scientific v) (bd_decimal v)
    (fun _ => Err (Printf NotHex)).
