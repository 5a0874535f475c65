(** Model of the format loop with argument objects that do something when they are asked: DefaultAppender.append
    (DefaultAppender.java:91-122) over the iterator of the ArrayList in ArgsImpl (ArgsImpl.java:175-177), which notices modifications.
    The trait objects (FormatTraits.java:44-168) may be of the caller's own class, so each of their methods may change the Args,
    through put or the remove() of another iterator, and any state of the caller's. *)
From Verif Require Import Base Digits UtilsM SeqM ContextM CompilerM IntFormM FormatterM MathM DecimalM FPDecimalM DoubleM
  BigDecM RoundM TraitsM ImplM.

(** java.util.ConcurrentModificationException *)
Definition CoModification : exn := OtherExn 4.

(** the methods of FormatTraits the library calls while formatting; NoMethod: the argument is taken and not asked *)
Inductive method := AsInt | AsChar | AsIntForm | AsFloatForm | AsSeq | AsTemporal | GetRef | NoMethod.

Section WithJdk.
  Variable J : jdk.
  (** the caller's state *)
  Variable U : Type.

  (** the ArrayList: its elements, given by numbers, and modCount. Simplification: modCount does not wrap around. *)
  Record world := mkWorld { w_args : list Z; w_mod : Z; w_user : U }.

  Definition effect (A : Type) := world -> res A * world.
  Record etraits := mkETraits {
    e_asIntForm : effect intform;
    e_asFloatForm : effect floatform;
    e_asInt : effect Z;
    e_asTemporal : effect temporal;
    e_asChar : effect Z;
    e_ref : effect refslot;
    e_asSeq : effect seq }.

  (** the objects behind the numbers *)
  Variable object : Z -> etraits.

  (** cursor of the iterator, world, and the methods called so far *)
  Record state := mkState { s_cursor : Z; s_world : world; s_calls : list (Z * method) }.
  Definition action (A : Type) := state -> res A * state.
  Definition done {A} (r : res A) : action A := fun s => (r, s).
  Definition andThen {A B} (m : action A) (k : A -> action B) : action B :=
    fun s => match m s with (Ok a, s') => k a s' | (Err e, s') => (Err e, s') end.
  Notation "'let+' x := m 'in' k" := (andThen m (fun x => k)) (at level 200, x name, m at level 100, k at level 200).

  (** ArrayList.Itr.hasNext and next, with expectedModCount [expected]; the two uses are DefaultAppender.java:92-95 and 117-121 *)
  Definition takeArg (expected : Z) : action Z := fun s =>
    if s_cursor s =? zlen (w_args (s_world s)) then (Err (Printf MissingArg), s)
    else if negb (w_mod (s_world s) =? expected) then (Err CoModification, s)
    else match znth (w_args (s_world s)) (s_cursor s) with
         | Some id => (Ok id, mkState (s_cursor s + 1) (s_world s) (s_calls s))
         | None => (Err NoSuchElem, s)
         end.

  Definition call {A} (m : method) (f : etraits -> effect A) (id : Z) : action A := fun s =>
    let (r, w) := f (object id) (s_world s) in (r, mkState (s_cursor s) w (s_calls s ++ [(id, m)])).

  (** DefaultAppender.java:91-96 *)
  Definition nextIntE (expected : Z) : action Z :=
    let+ id := takeArg expected in call AsInt e_asInt id.

  (** DefaultAppender.java:100-116 *)
  Definition resolveE (expected : Z) (c : ctx) : action ctx :=
    let+ c := (if isPrecedingWidth c then
                 let+ w := nextIntE expected in
                 done (if 0 <=? w then setWidth c w else setWidth (addFlag c LEFT_JUSTIFY) (wrap32 (- w)))
               else done (Ok c)) in
    if isPrecedingPrecision c then
      let+ p := nextIntE expected in done (setPrecision c (if 0 <=? p then p else UNSET))
    else done (Ok c).

  (** a trait object that only answers asTemporalAccessor *)
  Definition ofTemporal (t : temporal) : traits := mkTraits conv conv conv conv (Ok t) conv RNull conv.

  (** DefaultAppender.java:26-89: each conversion asks its argument once *)
  Definition withIntE (id : Z) (f : intform -> res seq) : action seq := let+ v := call AsIntForm e_asIntForm id in done (f v).
  Definition withFloatE (id : Z) (f : floatform -> res seq) : action seq := let+ v := call AsFloatForm e_asFloatForm id in done (f v).
  Definition withSeqE (id : Z) (f : seq -> res seq) : action seq := let+ v := call AsSeq e_asSeq id in done (f v).
  Definition withTimeE (id : Z) (f : temporal -> res seq) : action seq := let+ v := call AsTemporal e_asTemporal id in done (f v).
  Definition unasked (id : Z) (s : seq) : action seq := fun st => (Ok s, mkState (s_cursor st) (s_world st) (s_calls st ++ [(id, NoMethod)])).
  Definition formatE (sp : spec) (c : ctx) (id : Z) : action seq :=
    match sp with
    | Sd => withIntE id (fmt_d c)
    | Su => withIntE id (fmt_u c)
    | Sx => withIntE id (fmt_x c)
    | SX => withIntE id (fun v => upperOf (fmt_x c v))
    | So => withIntE id (fmt_o c)
    | Sf => withFloatE id (fmt_f c)
    | SF => withFloatE id (fun v => upperOf (fmt_f c v))
    | Se => withFloatE id (fmt_e c)
    | SE => withFloatE id (fun v => upperOf (fmt_e c v))
    | Sg => withFloatE id (fmt_g c)
    | SG => withFloatE id (fun v => upperOf (fmt_g c v))
    | Sa => withFloatE id (fmt_a c)
    | SA => withFloatE id (fun v => upperOf (fmt_a c v))
    | Ss => withSeqE id (fmt_s c)
    | SS => withSeqE id (fun s => upperOf (fmt_s c s))
    | St => withTimeE id (fun t => fmt_t J c (ofTemporal t))
    | ST => withTimeE id (fun t => upperOf (fmt_t J c (ofTemporal t)))
    | Sc => let+ v := call AsChar e_asChar id in done (fmt_c c v)
    | Sp => let+ v := call GetRef e_ref id in done (fmt_p c v)
    | Spct => unasked id (chS (ch "%"))
    | Sn => unasked id emptyS
    end.

  (** DefaultAppender.java:98-122, FixedStringAppender.java:16-22 *)
  Definition appendE (expected : Z) (a : appender) : action seq :=
    match a with
    | Fixed t => done (Ok (wrapS t))
    | Default sp c =>
        let+ c := resolveE expected c in
        let+ id := takeArg expected in
        formatE sp c id
    end.

  (** FastPrintfImpl.java:87-89, 102-104, 115-117. Writing a Seq does not call back. *)
  Fixpoint runE (emit : seq -> list Z -> outcome) (expected : Z) (apps : list appender) (s : state) (sb : list Z) : outcome * state :=
    match apps with
    | [] => ((sb, None), s)
    | a :: rest =>
        match appendE expected a s with
        | (Err e, s') => ((sb, Some e), s')
        | (Ok q, s') =>
            match emit q sb with
            | (sb', None) => runE emit expected rest s' sb'
            | o => (o, s')
            end
        end
    end.

  (** a call: the iterator is made first (FastPrintfImpl.java:82, 97) *)
  Definition callE (emit : seq -> list Z -> outcome) (apps : list appender) (w : world) (sb : list Z) : outcome * state :=
    runE emit (w_mod w) apps (mkState 0 w []) sb.
End WithJdk.
