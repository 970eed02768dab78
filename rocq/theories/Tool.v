(** exported/main_test.go: the program that shows how the library is meant to be
    used, which removes the comments of a file. *)
From Verif Require Export SpecIter Ast.

(** exported/main_test.go:24: the scopes it keeps *)
Definition tool_kinds : list scope_kind := [SConst; SVariable; SType; SFunc; SPackage; SImport].
(** exported/main_test.go:22-44: the callback of IterScope, for all scopes; [strip]
    is the callback of IterNext (26-38), its variable [takePrev] is new for each
    scope.  A loop over a chain of nodes visits each at most once, so [length h]
    steps suffice; otherwise the result would be [OutOfFuel]. *)
Fixpoint strip_scopes (h : heap) (scs : list (option scope)) : res (heap * list (option scope)) :=
  match scs with
  | [] => Ok (h, [])
  | None :: _ => Panic
  | Some sc :: r =>
    if bool_decide (sc_kind sc ∈ tool_kinds)
    then res_bind (iter_next fst (S (length h)) (sc_node sc) (strip (kind_eqb KComment)) (h, false)) (fun '((h, _), _) =>
         res_bind (strip_scopes h r) (fun '(h, out) => Ok (h, Some sc :: out)))
    else strip_scopes h r
  end.
(** exported/main_test.go:13-55 [TestExample] with any file names: the error of
    ParseAst or of Save. *)
Definition strip_file (e : env) (f : fs) (ord : nat -> list (str * ext)) (spare : nat) (h : heap) (m : arrays) (file file' : str)
  : res (list fs * fs * option error) :=
  res_bind (parse_ast e f ord spare h m file) (fun '(h, m, r) =>
  match r with
  | inr err => Ok ([f], f, Some err)
  | inl a =>
    res_bind (strip_scopes h (elems m (a_scope a))) (fun '(h, out) =>
    let '(m, s) := fresh_slice m out in
    ast_save e f h m (ast_set_scope a s) file' false)
  end).
