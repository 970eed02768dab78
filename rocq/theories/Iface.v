(** ast.go over scopes of any type: [Scope] (scope.go:15-50) is an exported
    interface, so the scopes of an ast may be values of the user's own types.
    Their methods are arbitrary: they may change nodes, files, slices and asts,
    panic, or never return. *)
From Verif Require Export Ast.

(** A value of type [Scope] that is not nil: one of the library's own
    [*scopeStruct] (never written to after it has been made: scope.go:53-60), or
    an object of the user's. *)
Inductive ival := Lib (sc : scope) | User (o : nat).

(** Everything a method can see and change: the nodes, the backing arrays of
    slices of scopes, the [*ast] values, the files, and state of its own. *)
Record world (U : Type) := mkWorld
  { w_heap : heap; w_arr : list (list (option ival)); w_asts : list ast; w_fs : fs; w_user : U }.
Global Arguments mkWorld {U}. Global Arguments w_heap {U}. Global Arguments w_arr {U}.
Global Arguments w_asts {U}. Global Arguments w_fs {U}. Global Arguments w_user {U}.

(** How a call ends: it returns, it panics (leaving a world behind), or it never
    comes back. *)
Inductive outcome (U A : Type) := Done (a : A) (w : world U) | Panicked (w : world U) | Hangs.
Global Arguments Done {U A}. Global Arguments Panicked {U A}. Global Arguments Hangs {U A}.

(** scope.go:15-50: the methods of the user's types, for each object.  [Line],
    [Print] and the getters are never called by ast.go. *)
Record methods (U : Type) := mkMethods
  { um_kind : nat -> world U -> outcome U str;
    um_line : nat -> world U -> outcome U Z;
    um_description : nat -> world U -> outcome U str;
    um_print : nat -> world U -> outcome U unit;
    um_node : nat -> world U -> outcome U ptr;
    um_getter : nat -> nat -> world U -> outcome U (str * bool);
    um_copy : nat -> world U -> outcome U (option ival) }.
Global Arguments um_kind {U}. Global Arguments um_line {U}. Global Arguments um_description {U}.
Global Arguments um_print {U}. Global Arguments um_node {U}. Global Arguments um_getter {U}. Global Arguments um_copy {U}.

(** What can be observed while ast.go runs: which method of which value it calls,
    and the states of the file system it goes through. *)
Inductive method := MKind | MDescription | MNode | MCopy.
Inductive event := Call (v : option ival) (m : method) | FileState (f : fs).

(** Computations that log. *)
Definition comp (U A : Type) := world U -> list event * outcome U A.
Definition cret {U A} (a : A) : comp U A := fun w => ([], Done a w).
Definition cbind {U A B} (c : comp U A) (k : A -> comp U B) : comp U B := fun w =>
  let '(log, o) := c w in
  match o with
  | Done a w => let '(log', o') := k a w in (log ++ log', o')
  | Panicked w => (log, Panicked w)
  | Hangs => (log, Hangs)
  end.
(** Library code that only looks at the nodes. *)
Definition look {U A} (f : heap -> res A) : comp U A := fun w =>
  match f (w_heap w) with
  | Ok a => ([], Done a w)
  | Panic => ([], Panicked w)
  | OutOfFuel => ([], Hangs)
  end.

Section Calls.
Context {U : Type} (um : methods U).

(** Method calls on an interface value; on a nil interface they panic. *)
Definition call_kind (v : option ival) : comp U str := fun w =>
  ([Call v MKind],
   match v with
   | None => Panicked w
   | Some (Lib sc) => Done (sc_kind sc) w                    (* scope.go:132-138 *)
   | Some (User o) => um_kind um o w
   end).
Definition call_node (v : option ival) : comp U ptr := fun w =>
  ([Call v MNode],
   match v with
   | None => Panicked w
   | Some (Lib sc) => Done (sc_node sc) w                    (* scope.go:140-142 *)
   | Some (User o) => um_node um o w
   end).
Definition call_description (v : option ival) : comp U str := fun w =>
  ([Call v MDescription],
   match v with
   | None => Panicked w
   | Some (Lib sc) => Done (scope_description (Some sc)) w   (* scope.go:144-150 *)
   | Some (User o) => um_description um o w
   end).
Definition set_heap (w : world U) (h : heap) : world U := mkWorld h (w_arr w) (w_asts w) (w_fs w) (w_user w).
Definition call_copy (v : option ival) : comp U (option ival) := fun w =>
  ([Call v MCopy],
   match v with
   | None => Panicked w
   | Some (Lib sc) =>                                        (* scope.go:304-310 *)
     match scope_copy (w_heap w) sc with
     | Ok (h, sc') => Done (Some (Lib sc')) (set_heap w h)
     | Panic => Panicked w
     | OutOfFuel => Hangs
     end
   | Some (User o) => um_copy um o w
   end).

(** The element of a slice at index [i], as it is now. *)
Definition slot (w : world U) (s : slice) (i : nat) : option ival :=
  default None (default [] (w_arr w !! sl_arr s) !! (sl_off s + i)).

(** Go's [for _, sc := range s { ... }]: the slice (array, offset, length) is
    evaluated once, the elements when their turn comes.  [body] says whether to
    go on. [k] iterations are left. *)
Fixpoint range_loop {B} (s : slice) (body : option ival -> B -> comp U (B * bool)) (k i : nat) (b : B) : comp U B :=
  match k with
  | O => cret b
  | S k => fun w =>
    cbind (body (slot w s i) b) (fun '(b, on) =>
      if (on : bool) then range_loop s body k (S i) b else cret b) w
  end.
Definition range {B} (s : slice) (body : option ival -> B -> comp U (B * bool)) (b : B) : comp U B :=
  range_loop s body (sl_len s) 0 b.

(** The [*ast] that [f] points to. *)
Definition get_ast (f : nat) : comp U ast := fun w =>
  match w_asts w !! f with Some a => ([], Done a w) | None => ([], Panicked w) end.

(** ast.go:97-124 [findPackageName] *)
Definition i_find_package (s : slice) : comp U (str + error) :=
  cbind (range s (fun v (found : option ival) =>
           cbind (call_kind v) (fun k =>
           cret (if str_eqb k SPackage then (v, false) else (found, true)))) None)
  (fun found =>
  match found with
  | None => cret (inr ErrNoPackage)
  | Some v =>
    cbind (call_node (Some v)) (fun n =>
    look (fun h => res_bind (scan_next h n (package_step h) false) (fun r => Ok (inl (text_of h (snd r))))))
  end).

(** A new [*ast] *)
Definition alloc_ast (a : ast) : comp U nat := fun w =>
  ([], Done (length (w_asts w)) (mkWorld (w_heap w) (w_arr w) (w_asts w ++ [a]) (w_fs w) (w_user w))).

(** ast.go:135-143 [NewAst] *)
Definition i_new_ast (s : slice) : comp U (nat + error) :=
  cbind (i_find_package s) (fun r =>
  match r with
  | inr e => cret (inr e)
  | inl _ => cbind (alloc_ast (mkAst [] [] [] [] s)) (fun f => cret (inl f))
  end).

(** ast.go:145-147 [Package] *)
Definition i_package (f : nat) : comp U (str + error) :=
  cbind (get_ast f) (fun a => i_find_package (a_scope a)).

(** ast.go:189-195 [IterScope]; the callback is the user's and may do anything *)
Definition i_iter_scope (f : nat) (fn : option ival -> world U -> outcome U bool) : comp U unit :=
  cbind (get_ast f) (fun a =>
  range (a_scope a) (fun v _ w =>
    ([], match fn v w with Done b w => Done (tt, b) w | Panicked w => Panicked w | Hangs => Hangs end)) tt).

(** ast.go:211-224 [Description] *)
Definition i_description (f : nat) : comp U str :=
  cbind (get_ast f) (fun a =>
  range (a_scope a) (fun v buf =>
    cbind (call_description v) (fun d =>
    cbind (call_node v) (fun n =>
    look (fun h =>
      res_bind (scan_next h n (fun l acc => (acc ++ description h (Some l), true)) (buf ++ d))
               (fun r => Ok (fst r, true)))))) []).

(** ast.go:226-237 [Save]; helper.SaveFile is [save_file] of Ast.v *)
Definition save_to (e : env) (file data : str) (autoImport : bool) : comp U (option error) := fun w =>
  let '(states, f, err) := save_file e (w_fs w) file data autoImport in
  (map FileState states, Done err (mkWorld (w_heap w) (w_arr w) (w_asts w) f (w_user w))).
Definition i_save (e : env) (f : nat) (file : str) (autoImport : bool) : comp U (option error) :=
  cbind (get_ast f) (fun a =>
  cbind (range (a_scope a) (fun v buf =>
    cbind (call_node v) (fun n =>
    look (fun h =>
      res_bind (scan_next h n (fun l acc => (acc ++ text_of h (Some l), true)) buf)
               (fun r => Ok (fst r, true))))) [])
  (fun buf => save_to e file buf autoImport)).

(** ast.go:239-252 [Copy]: the new slice has room for all copies and is seen by
    nobody before the end, so it is written at once here. *)
Definition alloc_slice (xs : list (option ival)) : comp U slice := fun w =>
  ([], Done (mkSlice (length (w_arr w)) 0 (length xs) (length xs))
            (mkWorld (w_heap w) (w_arr w ++ [xs]) (w_asts w) (w_fs w) (w_user w))).
Definition i_copy (f : nat) : comp U nat :=
  cbind (get_ast f) (fun a =>
  cbind (range (a_scope a) (fun v scs =>
    cbind (call_copy v) (fun v' => cret (scs ++ [v'], true))) [])
  (fun scs =>
  cbind (alloc_slice scs) (fun s =>
  cbind (get_ast f) (fun a =>
  alloc_ast (mkAst (a_file a) (a_dir a) (a_name a) (a_ext a) s))))).
End Calls.
