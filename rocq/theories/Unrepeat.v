(** helper.AppendUnrepeatable (helper/helper.go:143-157) over real Go slices:
    windows into backing arrays that may be shared.  [Kind.append_unrepeatable]
    is the same function on the contents alone. *)
From Verif Require Export Ast.

Section Unrepeat.
Context {T : Type} `{EqDecision T} (zero : T).

(** All backing arrays of element type [T]. *)
Notation memory := (list (list T)).

Definition cells (m : memory) (s : slice) : list T := default [] (m !! sl_arr s).
(** The elements of a slice. *)
Definition content (m : memory) (s : slice) : list T := take (sl_len s) (drop (sl_off s) (cells m s)).

(** [s[i]]: panics when [i] is not smaller than [len(s)]. *)
Definition at_index (m : memory) (s : slice) (i : nat) : res T :=
  if Nat.ltb i (sl_len s) then match cells m s !! (sl_off s + i) with Some x => Ok x | None => Panic end else Panic.
(** [s[1:]]: panics when [s] is empty. *)
Definition tail_slice (s : slice) : res slice :=
  if Nat.ltb 0 (sl_len s) then Ok (mkSlice (sl_arr s) (S (sl_off s)) (pred (sl_len s)) (pred (sl_cap s))) else Panic.

(** Writing [xs] into the cells [from], [from+1], ... *)
Fixpoint put_cells (a : list T) (from : nat) (xs : list T) : list T :=
  match xs with [] => a | x :: r => put_cells (<[from := x]> a) (S from) r end.
(** The builtin [append(s, e...)]: the elements of [e] are read before anything is
    written (the runtime moves them as memmove does).  [grow need] is the capacity
    the runtime picks when it must reallocate; it is at least [need]. *)
Definition go_append (grow : nat -> nat) (m : memory) (s e : slice) : memory * slice :=
  let xs := content m e in
  let need := sl_len s + sl_len e in
  if Nat.leb need (sl_cap s)
  then (alter (fun a => put_cells a (sl_off s + sl_len s) xs) (sl_arr s) m,
        mkSlice (sl_arr s) (sl_off s) need (sl_cap s))
  else
    let cap := Nat.max need (grow need) in
    (m ++ [content m s ++ xs ++ repeat zero (cap - need)], mkSlice (length m) 0 need cap).

(** helper.go:143-157 [AppendUnrepeatable].  Simplified: the equality of [Type] is
    total (a comparable interface type may panic in [==] when a dynamic type is
    not comparable). *)
Definition append_unrepeatable_slices (grow : nat -> nat) (m : memory) (s e : slice) : res (memory * slice) :=
  if Nat.eqb (sl_len e) 0 then Ok (m, s)
  else if Nat.eqb (sl_len s) 0 then Ok (m, e)
  else
    res_bind (at_index m s (sl_len s - 1)) (fun x =>
    res_bind (at_index m e 0) (fun y =>
    if bool_decide (x = y)
    then res_bind (tail_slice e) (fun e' => Ok (go_append grow m s e'))
    else Ok (go_append grow m s e))).

(** How kind_resetter_all.go:160,184 and kind_resetter_func.go:268 use it: a
    variable [buf], at first the slice [s], and one call [buf =
    AppendUnrepeatable(buf, x)] after the other, each with a fresh array for its
    variadic argument. *)
Fixpoint collect (grow : nat -> nat) (m : memory) (s : slice) (xs : list T) : res (memory * slice) :=
  match xs with
  | [] => Ok (m, s)
  | x :: r =>
    res_bind (append_unrepeatable_slices grow (m ++ [[x]]) s (mkSlice (length m) 0 1 1)) (fun '(m', s') =>
    collect grow m' s' r)
  end.
End Unrepeat.
