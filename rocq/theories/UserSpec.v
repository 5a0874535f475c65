(** What it means that objects of a class outside the library behave like texts. *)
From Verif Require Import Base ContextM SeqM SeqSpec FmtSpec TraitsM ValueSpec UserM.

(** %S as opposed to %s *)
Definition capital (s : spec) : bool := match s with SS => true | _ => false end.

Section Spec.
  Context {S : Type}.
  Variable K : cls S.
  Variable R : S -> list Z -> Prop.

  (** the sequence is an object that [R] says has the text [t], or a sequence of the library with that text *)
  Definition has_text (x : node S) (t : list Z) : Prop :=
    match x with Lib a => den_atom a t | Own u => R u t end.

  (** Every method of an object with text [t] answers as the contracts of CharSequence and Seq demand for [t]. *)
  Record acts_like_text : Prop := {
    al_size : forall u t, R u t -> zlen t <= int_max;
    al_len : forall u t, R u t -> u_len K u = zlen t;
    al_at : forall u t i c, R u t -> znth t i = Some c -> u_at K u i = Ok c;
    al_sub : forall u t i j, R u t -> 0 <= i -> i <= j -> j <= zlen t ->
      exists x, u_sub K u i j = Ok x /\ has_text x (slice t i j);
    al_up : forall u t, R u t -> exists x, u_up K u = Ok x /\ has_text x (map ascii_upper t);
    al_sb : forall u t sb, R u t -> u_sb K u sb = Ok (sb ++ t);
    al_app : forall u t sb, R u t -> u_app K u sb = Ok (sb ++ t);
    al_count : forall u t, R u t -> 0 <= u_count K u < int_max;
    al_str : forall u t, R u t -> u_str K u = Ok t }.

  (** an argument list with objects of the class, and the same list with Strings in their place *)
  Inductive with_string (J : jdk) : uarg (S:=S) -> traits -> Prop :=
  | ws_lib x : argument J x -> with_string J (Lib1 x) x
  | ws_own u t r : R u t -> with_string J (Own1 u r) (traitsOf J (VStr t) r).

  (** the text of a sequence: those of its leaves *)
  Definition text_is (g : gseq (S:=S)) (t : list Z) : Prop := exists ts, Forall2 has_text (g_leaves g) ts /\ t = concat ts.

  (** every composite in [g] records the sum of the lengths of its leaves, and a [Concat] their number *)
  Fixpoint chars (xs : list (node S)) : Z :=
    match xs with [] => 0 | Lib a :: xs => a_len a + chars xs | Own u :: xs => u_len K u + chars xs end.
  Fixpoint measured (g : gseq (S:=S)) : Prop :=
    match g with
    | GLeaf _ => True
    | GCat l r n k => measured l /\ measured r /\ n = chars (g_leaves l) + chars (g_leaves r) /\ k = zlen (g_leaves l) + zlen (g_leaves r)
    | GArr ps n => n = chars ps
    end.

  (** the part of [t] a precision leaves *)
  Definition left_by (q : fspec) (t : list Z) : list Z := match q_prec q with Some p => firstn (Z.to_nat p) t | None => t end.
End Spec.
