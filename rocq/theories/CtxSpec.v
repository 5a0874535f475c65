(** C68: what FormatContext objects are, with plain values instead of shared objects; C69: their texts. *)
From Verif Require Import Base Digits ContextM GrammarSpec CtxM.

(** a width or precision FormatContext accepts *)
Definition allowed (n : Z) : bool := (n =? -1) || (n =? int_min) || ((0 <=? n) && (n <=? 65536)).

(** a client with values: sets of flags it may change, contexts it can only derive new ones from *)
Definition values := (list flags * list ctx)%type.
Fixpoint replaced {A} (l : list A) (n : nat) (x : A) : list A :=
  match l, n with [], _ => [] | _ :: t, O => x :: t | a :: t, S n => a :: replaced t n x end.
Definition derived (v : values) (ok : bool) (c : ctx) : values := if ok then (fst v, snd v ++ [c]) else v.
Definition v_step (v : values) (o : op) : values :=
  match o with
  | NewSet => (fst v ++ [mkFlags false false false false false], snd v)
  | Change n s => (replaced (fst v) n s, snd v)
  | Create n w p d => match nth_error (fst v) n with Some s => derived v (allowed w && allowed p) (mkCtx s w p d) | None => v end
  | SetWidth n w => match nth_error (snd v) n with Some c => derived v (allowed w) (mkCtx (c_flags c) w (c_prec c) (c_dtf c)) | None => v end
  | SetPrecision n p => match nth_error (snd v) n with Some c => derived v (allowed p) (mkCtx (c_flags c) (c_width c) p (c_dtf c)) | None => v end
  | AddFlag n f =>
      match nth_error (snd v) n with
      | Some c => derived v true (match f with Some f => mkCtx (addF f (c_flags c)) (c_width c) (c_prec c) (c_dtf c) | None => c end)
      | None => v
      end
  | GetFlags n => match nth_error (snd v) n with Some c => (fst v ++ [c_flags c], snd v) | None => v end
  end.
Definition v_run (l : list op) : values := fold_left v_step l ([], []).

(** the character of a flag *)
Definition flag_letter (f : flag) : Z :=
  match f with LEFT_JUSTIFY => 45 | ALTERNATE => 35 | PLUS => 43 | LEADING_SPACE => 32 | ZERO_PAD => 48 end.
