(** Specification vocabulary for the opacity of names, strings and comments. *)
From Verif Require Export SpecLocal.

(** A whole delimited token: closed at its end and not before. *)
Definition whole (d : delim) (t : str) : Prop := closed d t /\ forall u, u `prefix_of` t -> closed d u -> u = t.

(** Two texts for the same token: the same, or two words of one kind (which both
    begin with a given scope keyword or both do not), or two strings or block
    comments of as many lines, or two line comments (of one kind.New kind, which
    matters for a comment cut off by the end of the file). *)
Inductive interchangeable : str -> str -> Prop :=
| ic_same t : interchangeable t t
| ic_word w w' : plain_word w -> plain_word w' -> kind_new w = kind_new w' -> (forall k, begins k w <-> begins k w') ->
    interchangeable w w'
| ic_delim d t t' : d <> DLine -> whole d t -> whole d t' -> count_nl t = count_nl t' -> interchangeable t t'
| ic_line b b' : c_nl ∉ b -> c_nl ∉ b' -> kind_new ($"//" ++ b) = kind_new ($"//" ++ b') ->
    interchangeable ($"//" ++ b) ($"//" ++ b').

(** The texts [ws] at the positions [js], one after the other. *)
Definition pick (ws : list str) (js : list nat) : str := concat (map (fun j => default [] (ws !! j)) js).
(** Two scopes that differ in their texts alone, and these are put together from
    the texts [ws] and [ws'] at the same positions. *)
Definition node_alike (ws ws' : list str) (t t' : Z * str * kind) : Prop :=
  fst (fst t) = fst (fst t') /\ snd t = snd t' /\ exists js, snd (fst t) = pick ws js /\ snd (fst t') = pick ws' js.
Definition view_alike (ws ws' : list str) (v v' : scope_view) : Prop :=
  fst v = fst v' /\ Forall2 (node_alike ws ws') (snd v) (snd v').
