(** Vocabulary for argument objects with side effects: what each conversion asks of its argument, and what such objects may do. *)
From Verif Require Import Base Digits SeqM ContextM CompilerM TraitsM ImplM EffM.

(** the one method a conversion calls *)
Definition asks (sp : spec) : method :=
  match sp with
  | Sd | Su | So | Sx | SX => AsIntForm
  | Sf | SF | Se | SE | Sg | SG | Sa | SA => AsFloatForm
  | Ss | SS => AsSeq
  | Sc => AsChar
  | St | ST => AsTemporal
  | Sp => GetRef
  | Sn | Spct => NoMethod
  end.
(** the methods a directive calls, in order: asInt for each '*', then its own *)
Definition demand (d : appender) : list method :=
  match d with
  | Fixed _ => []
  | Default sp c => (if c_width c =? PRECEDING then [AsInt] else []) ++ (if c_prec c =? PRECEDING then [AsInt] else []) ++ [asks sp]
  end.
Fixpoint demands (ds : list appender) : list method := match ds with [] => [] | d :: r => demand d ++ demands r end.

(** the methods of an object may do anything to the Args and the caller's state, but ArrayList counts modifications *)
Definition steady {U A} (f : effect U A) : Prop :=
  forall w, w_mod _ w <= w_mod _ (snd (f w)) /\ (w_mod _ (snd (f w)) = w_mod _ w -> w_args _ (snd (f w)) = w_args _ w).
Definition counted {U} (x : etraits U) : Prop :=
  steady (e_asIntForm _ x) /\ steady (e_asFloatForm _ x) /\ steady (e_asInt _ x) /\ steady (e_asTemporal _ x) /\
  steady (e_asChar _ x) /\ steady (e_ref _ x) /\ steady (e_asSeq _ x).

(** whatever they do, the methods answer like those of [x] *)
Definition answers {U} (e : etraits U) (x : traits) : Prop :=
  forall w, fst (e_asIntForm _ e w) = t_asIntForm x /\ fst (e_asFloatForm _ e w) = t_asFloatForm x /\ fst (e_asInt _ e w) = t_asInt x /\
    fst (e_asTemporal _ e w) = t_asTemporal x /\ fst (e_asChar _ e w) = t_asChar x /\ fst (e_ref _ e w) = Ok (t_ref x) /\
    fst (e_asSeq _ e w) = t_asSeq x.

Definition missing : exn := Printf MissingArg.
