(** What ast.go does with scopes of any type: vocabulary for C77. *)
From Verif Require Export SpecAst Iface.

(** Following [Next] from [p] leads through the nodes [ls] to nil. *)
Inductive walk (h : heap) : ptr -> list loc -> Prop :=
| walk_nil : walk h None []
| walk_cons l ls : walk h (next_of h (Some l)) ls -> walk h (Some l) (l :: ls).

Section Spec.
Context {U : Type} (um : methods U).
Notation world := (world U).

(** A method call on a scope comes back with a value. *)
Inductive node_returns : option ival -> world -> ptr -> world -> Prop :=
| nr_lib sc w : node_returns (Some (Lib sc)) w (sc_node sc) w
| nr_user o w p w' : um_node um o w = Done p w' -> node_returns (Some (User o)) w p w'.
Inductive kind_returns : option ival -> world -> str -> world -> Prop :=
| kr_lib sc w : kind_returns (Some (Lib sc)) w (sc_kind sc) w
| kr_user o w k w' : um_kind um o w = Done k w' -> kind_returns (Some (User o)) w k w'.
Inductive description_returns : option ival -> world -> str -> world -> Prop :=
| dr_lib sc w : description_returns (Some (Lib sc)) w (scope_description (Some sc)) w
| dr_user o w t w' : um_description um o w = Done t w' -> description_returns (Some (User o)) w t w'.
Inductive copy_returns : option ival -> world -> option ival -> world -> Prop :=
| cr_lib sc w h sc' : scope_copy (w_heap w) sc = Ok (h, sc') ->
    copy_returns (Some (Lib sc)) w (Some (Lib sc')) (mkWorld h (w_arr w) (w_asts w) (w_fs w) (w_user w))
| cr_user o w v w' : um_copy um o w = Done v w' -> copy_returns (Some (User o)) w v w'.

(** A method call does not come back: the scope is nil, or the user's method
    panics or runs for ever. *)
Inductive ending := EPanic (w : world) | EHang.
Inductive stops {A} (usr : nat -> world -> outcome U A) : option ival -> world -> ending -> Prop :=
| st_nil w : stops usr None w (EPanic w)
| st_panic o w w' : usr o w = Panicked w' -> stops usr (Some (User o)) w (EPanic w')
| st_hang o w : usr o w = Hangs -> stops usr (Some (User o)) w EHang.
Definition ended {A} (e : ending) (out : outcome U A) : Prop :=
  match e with EPanic w => out = Panicked w | EHang => out = Hangs end.

(** The element at index [i] of a slice: the [i]-th value after the offset in the
    slice's array; nil where there is none. *)
Definition element (w : world) (s : slice) (i : nat) : option ival :=
  nth i (drop (sl_off s) (nth (sl_arr s) (w_arr w) [])) None.

(** The elements of [s] from index [i] on are visited one after the other, each as
    it is found when its turn comes: [one v w x w'] is a visit of [v] in the world
    [w] which gives [x] and leaves [w']. *)
Inductive visits {A} (one : option ival -> world -> A -> world -> Prop) (s : slice)
  : nat -> world -> list (option ival) -> list A -> world -> Prop :=
| vis_none i w : visits one s i w [] [] w
| vis_one i w x w1 vs xs w2 : one (element w s i) w x w1 -> visits one s (S i) w1 vs xs w2 ->
    visits one s i w (element w s i :: vs) (x :: xs) w2.

(** Visits of Save, Description and Copy. *)
Definition text_of_scope (v : option ival) (w : world) (t : str) (w' : world) : Prop :=
  exists p ls, node_returns v w p w' /\ walk (w_heap w') p ls /\ t = text_at (w_heap w') ls.
Definition description_of_scope (v : option ival) (w : world) (t : str) (w' : world) : Prop :=
  exists d w1 p ls, description_returns v w d w1 /\ node_returns v w1 p w' /\ walk (w_heap w') p ls /\
    t = d ++ concat (map (fun l => description (w_heap w') (Some l)) ls).

(** Their failures. *)
Definition no_text (v : option ival) (w : world) (e : ending) : Prop :=
  stops (um_node um) v w e \/
  exists p w', node_returns v w p w' /\ (forall ls, ~ walk (w_heap w') p ls) /\ e = EHang.
Definition no_copy (v : option ival) (w : world) (e : ending) : Prop :=
  stops (um_copy um) v w e \/
  exists sc, v = Some (Lib sc) /\ (forall h' sc', scope_copy (w_heap w) sc <> Ok (h', sc')) /\ e = EHang.

(** The world is as it was, but for the user's own state. *)
Definition quiet (w w' : world) : Prop :=
  w_heap w' = w_heap w /\ w_arr w' = w_arr w /\ w_asts w' = w_asts w /\ w_fs w' = w_fs w.

(** The value answers like the library's scope [sc] (both may be nil), whatever it
    does to its own state: a wrapper around [sc], say. *)
Definition like_kind (v : option ival) (o : option scope) : Prop :=
  match v, o with
  | None, None => True
  | Some (Lib sc'), Some sc => sc_kind sc' = sc_kind sc
  | Some (User n), Some sc => forall w, exists w', um_kind um n w = Done (sc_kind sc) w' /\ quiet w w'
  | _, _ => False
  end.
Definition like_node (v : option ival) (o : option scope) : Prop :=
  match v, o with
  | None, None => True
  | Some (Lib sc'), Some sc => sc_node sc' = sc_node sc
  | Some (User n), Some sc => forall w, exists w', um_node um n w = Done (sc_node sc) w' /\ quiet w w'
  | _, _ => False
  end.
Definition like_description (v : option ival) (o : option scope) : Prop :=
  match v, o with
  | None, None => True
  | Some (Lib sc'), Some sc => sc' = sc
  | Some (User n), Some sc => forall w, exists w', um_description um n w = Done (scope_description (Some sc)) w' /\ quiet w w'
  | _, _ => False
  end.
(** The same for Copy: it makes the nodes the library's Copy makes, and its
    result again answers like that copy. *)
Definition like_copy (v : option ival) (o : option scope) : Prop :=
  match v, o with
  | None, None => True
  | Some (Lib sc'), Some sc => sc' = sc
  | Some (User n), Some sc => forall w h sc', scope_copy (w_heap w) sc = Ok (h, sc') ->
      exists v' w', um_copy um n w = Done v' w' /\ w_heap w' = h /\ w_arr w' = w_arr w /\ w_asts w' = w_asts w /\ w_fs w' = w_fs w /\
        like_kind v' (Some sc') /\ like_node v' (Some sc') 
  | _, _ => False
  end.

(** The elements of a slice. *)
Definition slots (w : world) (s : slice) : list (option ival) := map (element w s) (seq 0 (sl_len s)).
End Spec.
