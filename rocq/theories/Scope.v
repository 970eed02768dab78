(** scope.go: splitting a file into top-level scopes, and the name getters. *)
From Verif Require Export Extract Reset.

(** scope.go:118-122 [scopeStruct].  It has no setters, so the pointer can be
    modelled by its contents. *)
Record scope := mkScope { sc_line : Z; sc_kind : scope_kind; sc_node : ptr }.

(** scope.go:54-60 [NewScope] *)
Definition new_scope (line : Z) (k : scope_kind) (n : ptr) : scope := mkScope line k n.

(** scope.go:124-130 [Line], 132-138 [Kind], 140-142 [Node]; [None] is a nil
    receiver. [Node] on nil panics, hence only defined on scopes. *)
Definition scope_line (d : option scope) : Z :=
  match d with None => (-1)%Z | Some d => (sc_line d + 1)%Z end.
Definition scope_kind_of (d : option scope) : scope_kind :=
  match d with None => SUnknown | Some d => sc_kind d end.

(** scope.go:144-150 [Description] *)
Definition scope_description (d : option scope) : str :=
  match d with
  | None => []
  | Some sc => dec_Z (scope_line d + 1) ++ $" .... *Scope." ++ scope_kind_string (sc_kind sc)
  end.

(** The variables captured by the closures of ParseScope (scope.go:69-74); the
    heap is threaded because tryAppendScope cuts links. *)
Record pst := mkP
  { p_heap : heap; p_scs : list scope; p_reset : list ptr; p_head : ptr;
    p_k : scope_kind; p_line : Z }.

(** scope.go:76-89 [tryAppendScope] *)
Definition try_append (s : pst) : pst :=
  let '(scs, reset) :=
    if negb (str_eqb (p_k s) SUnknown)
    then (p_scs s ++ [new_scope (line_of (p_heap s) (p_head s)) (p_k s) (p_head s)],
          p_reset s ++ [p_head s])
    else (p_scs s, p_reset s) in
  let h := if negb (ptr_eqb (prev_of (p_heap s) (p_head s)) None)
           then fst (remove_prev (p_heap s) (p_head s)) else p_heap s in
  mkP h scs reset (p_head s) (p_k s) (p_line s).

(** scope.go:91-107, the callback *)
Definition split_step (l : loc) (s : pst) : pst * bool :=
  let h := p_heap s in
  if (line_of h (Some l) =? p_line s)%Z then (s, true)
  else
    let line := line_of h (Some l) in
    let nk := new_scope_kind (text_of h (Some l)) in
    let s := mkP (p_heap s) (p_scs s) (p_reset s) (p_head s) (p_k s) line in
    if str_eqb nk SUnknown then (s, true)
    else
      let s := try_append s in
      (mkP (p_heap s) (p_scs s) (p_reset s) (Some l) nk (p_line s), true).

(** scope.go:69-109: everything between extract and the resetting of kinds. *)
Definition split_scopes (h : heap) (node : ptr) (startLine : Z) : res (heap * list scope * list ptr) :=
  let s := mkP h [] [] node SUnknown (startLine - 1) in
  res_bind (iter_next p_heap (S (length h)) node (fun l s => Ok (split_step l s)) s)
    (fun '(s, _) =>
       let s := try_append s in
       Ok (p_heap s, p_scs s, p_reset s)).

(** scope.go:111-113 *)
Fixpoint reset_all (h : heap) (ns : list ptr) : res heap :=
  match ns with
  | [] => Ok h
  | n :: r =>
    res_bind (reset_kind (reset_fuel h) n (mkSt h [])) (fun '(s, _) => reset_all (s_heap s) r)
  end.

(** scope.go:63-116 [ParseScope]; its error result is always nil. *)
Definition parse_scope (ord : nat -> list (str * ext)) (h : heap) (startLine : Z) (text : str)
  : res (heap * list scope) :=
  res_bind (extract ord h text) (fun '(h, node) =>
  res_bind (split_scopes h node startLine) (fun '(h, scs, ns) =>
  res_bind (reset_all h ns) (fun h => Ok (h, scs)))).

(** The callback of the getters of the form
    [found = n.Kind() == K; name = n.Text(); return !found]
    (scope.go:219-223, 276-280, 295-299). *)
Definition last_until (h : heap) (K : kind) (l : loc) (_ : str * bool) : (str * bool) * bool :=
  let found := kind_eqb (kind_of h (Some l)) K in
  ((text_of h (Some l), found), negb found).
Definition get_last_until (h : heap) (K : kind) (d : scope) : res (str * bool) :=
  res_bind (scan_next h (sc_node d) (last_until h K) ([], false)) (fun r => Ok (fst r)).

(** scope.go:186-207 [GetFuncName] *)
Definition get_func_name (h : heap) (d : scope) : res (str * bool) :=
  if negb (str_eqb (sc_kind d) SFunc) then Ok ([], false)
  else res_bind (scan_next h (sc_node d)
         (fun l v => if kind_eqb (kind_of h (Some l)) KFuncName
                     then ((text_of h (Some l), true), false) else (v, true))
         ([], false)) (fun r => Ok (fst r)).

(** scope.go:209-226 [GetTypeName] *)
Definition get_type_name (h : heap) (d : scope) : res (str * bool) :=
  if negb (str_eqb (sc_kind d) SType) then Ok ([], false)
  else get_last_until h KTypeName d.

(** scope.go:228-243 [GetStructName] and 245-260 [GetInterfaceName] *)
Definition get_kinded_name (K : kind) (h : heap) (d : scope) : res (str * bool) :=
  if negb (str_eqb (sc_kind d) SType) then Ok ([], false)
  else
    res_bind (scan_next h (sc_node d)
      (fun l (_ : bool) => let b := kind_eqb (kind_of h (Some l)) K in (b, negb b)) false)
      (fun r =>
    res_bind (get_type_name h d) (fun nm => Ok (fst nm, fst r))).
Definition get_struct_name := get_kinded_name KStruct.
Definition get_interface_name := get_kinded_name KInterface.

(** scope.go:285-302 [GetMethodReceiver] *)
Definition get_method_receiver (h : heap) (d : scope) : res (str * bool) :=
  if negb (str_eqb (sc_kind d) SFunc) then Ok ([], false)
  else get_last_until h KMethodReceiverType d.

(** scope.go:262-283 [GetMethodName] *)
Definition get_method_name (h : heap) (d : scope) : res (str * bool) :=
  if negb (str_eqb (sc_kind d) SFunc) then Ok ([], false)
  else res_bind (get_method_receiver h d) (fun r =>
       if negb (snd r) then Ok ([], false) else get_last_until h KFuncName d).

(** scope.go:304-310 [Copy] *)
Definition scope_copy (h : heap) (d : scope) : res (heap * scope) :=
  res_bind (copy h (sc_node d) true) (fun '(h, n) =>
  Ok (h, mkScope (sc_line d) (sc_kind d) n)).
