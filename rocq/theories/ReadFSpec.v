(** Reading printed floating-point numbers, as strtod does: a reader independent of the printer. *)
From Coq Require Import QArith.
From Verif Require Import Base ContextM CompilerM GrammarSpec ReadSpec DecSpec FmtSpec FloatSpec.
Open Scope Z_scope.

(** a digit of base 10 or 16 *)
Definition is_digit (base c : Z) : bool :=
  ((48 <=? c) && (c <=? 57)) || ((base =? 16) && (((97 <=? c) && (c <=? 102)) || ((65 <=? c) && (c <=? 70)))).

(** the longest run of digits, and what follows it *)
Fixpoint digits_run (base : Z) (t : list Z) : list Z * list Z :=
  match t with
  | [] => ([], [])
  | c :: r => if is_digit base c then let (d, r') := digits_run base r in (c :: d, r') else ([], t)
  end.

Fixpoint skip_blanks (t : list Z) : list Z := match t with c :: r => if c =? 32 then skip_blanks r else t | [] => [] end.

Definition read_sign (t : list Z) : bool * list Z :=
  match t with c :: r => if c =? 45 then (true, r) else if c =? 43 then (false, r) else (false, t) | [] => (false, []) end.

(** the hexadecimal prefix *)
Definition read_prefix (base : Z) (t : list Z) : option (list Z) :=
  if base =? 16 then
    match t with z :: x :: r => if (z =? 48) && ((x =? 120) || (x =? 88)) then Some r else None | _ => None end
  else Some t.

(** optional fraction *)
Definition read_fraction (base : Z) (t : list Z) : list Z * list Z :=
  match t with c :: r => if c =? 46 then digits_run base r else ([], t) | [] => ([], []) end.

(** optional exponent after [mark] ('e' or 'p', in either case), in decimal *)
Definition read_exponent (mark : Z) (t : list Z) : option (Z * list Z) :=
  match t with
  | [] => Some (0, [])
  | c :: r =>
      if (c =? mark) || (c =? mark - 32) then
        let (neg, r) := read_sign r in
        match digits_run 10 r with
        | ([], _) => None
        | (d, r) => Some (if neg then - read_digits 10 d else read_digits 10 d, r)
        end
      else Some (0, t)
  end.

(** sign, digits with the point removed, number of fraction digits, exponent; nothing but blanks may surround the number *)
Definition read_float (base mark : Z) (t : list Z) : option (bool * Z * Z * Z) :=
  let (neg, t) := read_sign (skip_blanks t) in
  match read_prefix base t with
  | None => None
  | Some t =>
      let (i, t) := digits_run base t in
      let (f, t) := read_fraction base t in
      match i, read_exponent mark t with
      | _ :: _, Some (x, t) =>
          match skip_blanks t with
          | [] => Some (neg, read_digits base (i ++ f), zlen f, x)
          | _ => None
          end
      | _, _ => None
      end
  end.

(** [t] is the decimal numeral of the number with this sign and absolute value *)
Definition reads_as (t : list Z) (neg : bool) (x : Q) : Prop :=
  exists N k y, read_float 10 (ch "e") t = Some (neg, N, k, y) /\ (x == dec N (y - k))%Q.

(** the same for a hexadecimal numeral with binary exponent *)
Definition hex_reads_as (t : list Z) (neg : bool) (x : Q) : Prop :=
  exists N k y, read_float 16 (ch "p") t = Some (neg, N, k, y) /\ (x * 16 ^ k == inject_Z N * 2 ^ y)%Q.

(** a text stands for one number only *)
Lemma reads_as_unique t neg neg' x x' : reads_as t neg x -> reads_as t neg' x' -> neg = neg' /\ (x == x')%Q.
Proof.
  intros (N & k & y & E & V) (N' & k' & y' & E' & V'). rewrite E in E'. injection E' as <- <- <- <-.
  split; [reflexivity|]. rewrite V, V'. reflexivity.
Qed.

(** [t] reads as the finite double [b]: its sign, and a number that no double is nearer to *)
Definition reads_back (t : list Z) (b : Z) : Prop := exists x, reads_as t (b <? 0) x /\ rounds_to x (magnitude b).

(** [t] is a numeral of the (signed) number [y] *)
Definition stands_for (t : list Z) (y : Q) : Prop := exists neg x, reads_as t neg x /\ (y == if neg then - x else x)%Q.

(** [x] is [y] >= 0 rounded half up to [P] significant digits *)
Definition sig_rounded (y : Q) (P : Z) (x : Q) : Prop :=
  (y == 0)%Q /\ (x == 0)%Q \/ exists S X, sig_half_up y P S X /\ (x == dec S (X - P + 1))%Q.
(** [x] is [y] >= 0 rounded as the conversion asks *)
Definition rounded (s : spec) (q : fspec) (y x : Q) : Prop :=
  match s with
  | Sf | SF => exists N, half_up_at y (prec_or 6 q) N /\ (x == dec N (- prec_or 6 q))%Q
  | Se | SE => sig_rounded y (prec_or 6 q + 1) x
  | Sg | SG => sig_rounded y (g_prec q) x
  | _ => False
  end.

(** a precision that keeps every digit of every double *)
Definition keeps_all (s : spec) (q : fspec) : Prop :=
  match s with
  | Sf | SF => 325 <= prec_or 6 q
  | Se | SE => 17 <= prec_or 6 q + 1
  | Sg | SG => 17 <= g_prec q
  | _ => False
  end.

(** the conversions printing decimals *)
Definition decimal_spec (s : spec) : Prop := s = Sf \/ s = SF \/ s = Se \/ s = SE \/ s = Sg \/ s = SG.
