(** Specification vocabulary for asts that look like a file, whoever made them. *)
From Verif Require Export SpecGo SpecEdit.

(** What is visible of a scope apart from lines: its kind, and texts and kinds of
    its nodes. *)
Definition looks_like (h : heap) (sc : scope) (s : str * list lexeme) : Prop :=
  exists ls, scope_nodes h sc ls /\ scope_kind_of (Some sc) = fst s /\ map (shows h) ls = snd s.
Definition looks (h : heap) (scs : list scope) (ss : list (str * list lexeme)) : Prop := Forall2 (looks_like h) scs ss.
(** What is seen of scopes on chains of their own. *)
Definition shapes (h : heap) (scs : list scope) (ds : list (list loc * list loc)) : list (str * list lexeme) :=
  zip_with (fun sc s => (scope_kind_of (Some sc), map (shows h) (snd s))) scs ds.
Definition shape_text (s : str * list lexeme) : str := spelling (snd s).

(** The package a file declares: the first package clause has the form
    package [name]. *)
Definition package_decl (name : str) : decl := DOther $"package" [lx $" "; lx name].
Definition declares_package (is : list item) (name : str) : Prop :=
  exists A k B, is = A ++ (package_decl name, k) :: B /\ Forall (fun i => decl_kind (fst i) <> $"package") A.

(** The declaration with another name. *)
Definition renamed (new : str) (d : decl) : decl :=
  match d with
  | DFunc recv _ tps ps r body note => DFunc recv new tps ps r body note
  | DStruct _ tps rows note => DStruct new tps rows note
  | DInterface _ tps rows note => DInterface new tps rows note
  | DType _ tps alias t rs note => DType new tps alias t rs note
  | DFuncType _ tps ps r note => DFuncType new tps ps r note
  | d => d
  end.
Definition declares_name (d : decl) : Prop :=
  match d with DFunc _ _ _ _ _ _ _ | DStruct _ _ _ _ | DInterface _ _ _ _ | DType _ _ _ _ _ _ | DFuncType _ _ _ _ _ => True | _ => False end.
