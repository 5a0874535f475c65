(** Vocabulary for statements about the calls made on an Appendable. *)
From Verif Require Import Base SeqM TraitsM ImplM SinkM.

(** the characters a call hands over *)
Definition handed (c : call) : list Z :=
  match c with PutChar x => [x] | PutPart s i j => slice s i j | PutAll s => s end.

(** the part named exists *)
Definition in_bounds (c : call) : Prop :=
  match c with PutPart s i j => 0 <= i /\ i <= j /\ j <= zlen s | _ => True end.

(** making calls in order on a target until one throws *)
Fixpoint feed {W} (append : W -> call -> W * option failure) (calls : list call) (w : W) : W * option failure :=
  match calls with
  | [] => (w, None)
  | c :: r => match append w c with
              | (w', None) => feed append r w'
              | stop => stop
              end
  end.

(** an IOException comes out wrapped, anything else as it is *)
Definition wrapped (f : failure) : thrown := match f with Io n => UncheckedIO n | Unchecked e => Plain e end.

(** what comes of a target that is handed [calls] by a call of format which, left alone, ends with [e] *)
Definition ends {W} (append : W -> call -> W * option failure) (calls : list call) (e : option exn) (w : W) : W * option thrown :=
  match feed append calls w with
  | (w', Some f) => (w', Some (wrapped f))
  | (w', None) => (w', option_map Plain e)
  end.

(** an Appendable that keeps what it is handed and throws IOException [n] instead of exceeding [room] characters, having
    taken of the last call what fits *)
Definition bounded (room n : Z) (w : list Z) (c : call) : list Z * option failure :=
  let t := w ++ handed c in
  if zlen t <=? room then (t, None) else (firstn (Z.to_nat room) t, Some (Io n)).
