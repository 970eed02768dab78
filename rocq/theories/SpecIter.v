(** Specification vocabulary for iterating over a chain that the callback changes. *)
From Verif Require Export SpecNode.

(** Next() (Prev()) leads from each of the nodes to the following one and from the
    last to nil. *)
Fixpoint leads (step : loc -> ptr) (ls : list loc) : Prop :=
  match ls with
  | [] => True
  | l :: r => step l = head r /\ leads step r
  end.

(** The callback of exported/main_test.go:21-36, for any set of kinds: take out
    the previous node if it was unwanted, and remember whether this one is. *)
Definition strip (unwanted : kind -> bool) (l : loc) (s : heap * bool) : res ((heap * bool) * bool) :=
  let h := if snd s then fst (take_prev (fst s) (Some l)) else fst s in
  Ok ((h, unwanted (kind_of h (Some l))), true).
(** What should be left: all but the unwanted nodes; the last node stays. *)
Fixpoint stripped (unwanted : kind -> bool) (h : heap) (ls : list loc) : list loc :=
  match ls with
  | [] => []
  | [l] => [l]
  | l :: r => if unwanted (kind_of h (Some l)) then stripped unwanted h r else l :: stripped unwanted h r
  end.

(** A callback that inserts a new node after the one it is called on. *)
Definition grow (line : Z) (text : str) (l : loc) (h : heap) : res (heap * bool) :=
  let '(h, n) := new_node h line text [] in
  Ok (fst (insert_next h (Some l) (Some n)), true).
