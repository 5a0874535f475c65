(** Sequences that follow the content of an array, stated character by character. *)
From Verif Require Import Base SeqSpec MiscSpec ViewM.

(** a character of a sequence: a fixed one, or the one that is at some place of an array at the time of asking *)
Inductive cell := Fixed (c : Z) | Place (r : nat) (i : Z) (up : bool).

Definition value (h : store) (c : cell) : Z :=
  match c with
  | Fixed c => c
  | Place r i up => let x := nth (Z.to_nat i) (nth r h []) 0 in if up then ascii_upper x else x
  end.
Definition content (h : store) (l : list cell) : list Z := map (value h) l.

(** the places [st], ..., [st + n - 1] *)
Definition places (r : nat) (st : Z) (n : nat) : list cell := map (fun i => Place r (st + Z.of_nat i) false) (List.seq 0 n).
Definition in_upper (c : cell) : cell := match c with Fixed c => Fixed (ascii_upper c) | Place r i _ => Place r i true end.

(** a sequence: its characters, whether it follows an array, whether it is in upper case, and the texts it had when its hash
    code was asked for *)
Record sobj := mkS { so_cells : list cell; so_follows : bool; so_upper : bool; so_asked : list (list Z) }.

(** the first hash code that is not 0 *)
Fixpoint first_hash (l : list (list Z)) : Z :=
  match l with
  | [] => 0
  | t :: r => if string_hash t =? 0 then first_hash r else string_hash t
  end.

Record world := mkW { w_arrays : store; w_objs : list sobj; w_held : list nat }.
Definition found (W : world) (k : nat) : option (nat * sobj) :=
  match nth_error (w_held W) k with
  | Some p => match nth_error (w_objs W) p with Some o => Some (p, o) | None => None end
  | None => None
  end.
Definition gives (W : world) (o : sobj) : world * answer := (mkW (w_arrays W) (w_objs W ++ [o]) (w_held W ++ [List.length (w_objs W)]), Done).

Definition s_step (W : world) (o : op) : world * answer :=
  match o with
  | NewArray a => (mkW (w_arrays W ++ [a]) (w_objs W) (w_held W), Done)
  | Write r i c =>
      match nth_error (w_arrays W) r with
      | Some a => if (0 <=? i) && (i <? zlen a)
                  then (mkW (set_nth (w_arrays W) r (firstn (Z.to_nat i) a ++ c :: skipn (S (Z.to_nat i)) a)) (w_objs W) (w_held W), Done)
                  else (W, Fails)
      | None => (W, Fails)
      end
  | Wrap r st n =>
      match nth_error (w_arrays W) r with
      | Some a => if (0 <=? st) && (0 <=? n) && (st + n <=? zlen a) then gives W (mkS (places r st (Z.to_nat n)) true false [])
                  else (W, Fails)
      | None => (W, Fails)
      end
  | Slice k i j =>
      match found W k with
      | Some (_, o) =>
          let cs := so_cells o in
          if (0 <=? i) && (i <=? j) && (j <=? zlen cs) then
            if j =? i + 1 then gives W (mkS (map (fun c => Fixed (value (w_arrays W) c)) (slice cs i j)) false false [])
            else gives W (mkS (slice cs i j) (so_follows o && (i <? j)) (so_upper o) [])
          else (W, Fails)
      | None => (W, Fails)
      end
  | Upper k =>
      match found W k with
      | Some (p, o) => if so_follows o && so_upper o then (mkW (w_arrays W) (w_objs W) (w_held W ++ [p]), Done)
                       else gives W (mkS (map in_upper (so_cells o)) (so_follows o) true [])
      | None => (W, Fails)
      end
  | Hash k =>
      match found W k with
      | Some (p, o) =>
          if so_follows o then
            let asked := so_asked o ++ [content (w_arrays W) (so_cells o)] in
            (mkW (w_arrays W) (set_nth (w_objs W) p (mkS (so_cells o) (so_follows o) (so_upper o) asked)) (w_held W), Number (first_hash asked))
          else (W, Done)
      | None => (W, Done)
      end
  | Text k =>
      match found W k with
      | Some (_, o) => (W, Chars (content (w_arrays W) (so_cells o)))
      | None => (W, Fails)
      end
  end.
Fixpoint s_runs (l : list op) (W : world) : list answer :=
  match l with
  | [] => []
  | o :: r => let '(W', a) := s_step W o in a :: s_runs r W'
  end.
Definition empty_world : world := mkW [] [] [].

(** operations Java allows: arrays and indices fit an int *)
Definition op_ok (o : op) : Prop :=
  match o with
  | NewArray a => zlen a <= int_max
  | Wrap _ st n => is_int st /\ is_int n
  | _ => True
  end.
