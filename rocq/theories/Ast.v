(** ast.go and the file part of helper/helper.go. *)
From Verif Require Export Scope.

(** ** Slices of scopes

    A Go slice is a window into a backing array; [append] writes into the spare
    capacity of the array when there is some.  [arrays] holds all backing
    arrays; unused cells hold the nil interface ([None]).
    A nil slice is a window of length and capacity 0. *)
Definition arrays := list (list (option scope)).
Record slice := mkSlice { sl_arr : nat; sl_off : nat; sl_len : nat; sl_cap : nat }.

Definition arr_of (m : arrays) (s : slice) : list (option scope) := default [] (m !! sl_arr s).
Definition elems (m : arrays) (s : slice) : list (option scope) :=
  take (sl_len s) (drop (sl_off s) (arr_of m s)).

(** Writing [xs] into array cells [from], [from+1], ... *)
Fixpoint write_cells (a : list (option scope)) (from : nat) (xs : list (option scope)) : list (option scope) :=
  match xs with [] => a | x :: r => write_cells (<[from := x]> a) (S from) r end.

(** The builtin [append].  [grow need] is the capacity the runtime picks when it
    must reallocate; it is at least [need]. *)
Definition append_slice (grow : nat -> nat) (m : arrays) (s : slice) (xs : list (option scope)) : arrays * slice :=
  let need := sl_len s + length xs in
  if Nat.leb need (sl_cap s)
  then (alter (fun a => write_cells a (sl_off s + sl_len s) xs) (sl_arr s) m,
        mkSlice (sl_arr s) (sl_off s) need (sl_cap s))
  else
    let cap := Nat.max need (grow need) in
    (m ++ [elems m s ++ xs ++ repeat None (cap - need)],
     mkSlice (length m) 0 need cap).

(** A slice literal / variadic argument list: a fresh array of that length. *)
Definition fresh_slice (m : arrays) (xs : list (option scope)) : arrays * slice :=
  (m ++ [xs], mkSlice (length m) 0 (length xs) (length xs)).

(** ** ast.go *)

(** ast.go:15-18 and the other errors that can be returned *)
Inductive error := ErrNoPackage | ErrNotExist | ErrOther.

(** ast.go:126-132 [type ast struct] *)
Record ast := mkAst
  { a_file : str; a_dir : str; a_name : str; a_ext : str; a_scope : slice }.

(** ast.go:97-124 [findPackageName]; a nil scope in the list panics at
    [sc.Kind()]. *)
Fixpoint find_package_scope (scs : list (option scope)) : res (option scope) :=
  match scs with
  | [] => Ok None
  | None :: _ => Panic
  | Some sc :: r =>
    if str_eqb (sc_kind sc) SPackage then Ok (Some sc) else find_package_scope r
  end.
Definition package_step (h : heap) (l : loc) (seen : bool) : bool * bool :=
  let k := kind_of h (Some l) in
  if seen && kind_eqb k KRaw then (seen, false)
  else (if kind_eqb k KPackage then true else seen, true).
Definition find_package_name (h : heap) (scs : list (option scope)) : res (str + error) :=
  res_bind (find_package_scope scs) (fun o =>
  match o with
  | None => Ok (inr ErrNoPackage)
  | Some sc => res_bind (scan_next h (sc_node sc) (package_step h) false)
                 (fun r => Ok (inl (text_of h (snd r))))
  end).

(** ast.go:135-143 [NewAst] *)
Definition new_ast (h : heap) (m : arrays) (s : slice) : res (ast + error) :=
  res_bind (find_package_name h (elems m s)) (fun r =>
  match r with
  | inr e => Ok (inr e)
  | inl _ => Ok (inl (mkAst [] [] [] [] s))
  end).

(** ast.go:145-147 [Package] *)
Definition ast_package (h : heap) (m : arrays) (a : ast) : res (str + error) :=
  find_package_name h (elems m (a_scope a)).

(** ast.go:197-205 [SetScope] *)
Definition ast_set_scope (a : ast) (s : slice) : ast :=
  mkAst (a_file a) (a_dir a) (a_name a) (a_ext a) s.

(** ast.go:207-209 [AppendScope]: the receiver's field is replaced. *)
Definition ast_append_scope (grow : nat -> nat) (m : arrays) (a : ast) (scs : list (option scope)) : arrays * ast :=
  let '(m, s) := append_slice grow m (a_scope a) scs in
  (m, mkAst (a_file a) (a_dir a) (a_name a) (a_ext a) s).

(** ast.go:189-195 [IterScope] with a callback over its own state *)
Fixpoint iter_scope {A} (scs : list (option scope)) (fn : option scope -> A -> A * bool) (a : A) : A :=
  match scs with
  | [] => a
  | sc :: r => let '(a, b) := fn sc a in if b then iter_scope r fn a else a
  end.

(** The text collected by [buf.WriteString(n.Text())] along a chain
    (ast.go:230-233) *)
Definition chain_text (h : heap) (p : ptr) : res str :=
  res_bind (scan_next h p (fun l acc => (acc ++ text_of h (Some l), true)) [])
           (fun r => Ok (fst r)).

(** ast.go:229-234: over all scopes; [sc.Node()] on a nil interface panics. *)
Fixpoint save_text (h : heap) (scs : list (option scope)) : res str :=
  match scs with
  | [] => Ok []
  | None :: _ => Panic
  | Some sc :: r =>
    res_bind (chain_text h (sc_node sc)) (fun t =>
    res_bind (save_text h r) (fun t' => Ok (t ++ t')))
  end.

(** ast.go:211-224 [Description] *)
Fixpoint ast_description (h : heap) (scs : list (option scope)) : res str :=
  match scs with
  | [] => Ok []
  | None :: _ => Panic
  | Some sc :: r =>
    res_bind (scan_next h (sc_node sc)
       (fun l acc => (acc ++ description h (Some l), true)) []) (fun t =>
    res_bind (ast_description h r) (fun t' =>
    Ok (scope_description (Some sc) ++ fst t ++ t')))
  end.

(** ast.go:239-252 [Copy]: copies of the scopes in a new slice. *)
Fixpoint copy_scopes (h : heap) (scs : list (option scope)) : res (heap * list (option scope)) :=
  match scs with
  | [] => Ok (h, [])
  | None :: _ => Panic
  | Some sc :: r =>
    res_bind (scope_copy h sc) (fun '(h, sc') =>
    res_bind (copy_scopes h r) (fun '(h, r') => Ok (h, Some sc' :: r')))
  end.
Definition ast_copy (h : heap) (m : arrays) (a : ast) : res (heap * arrays * ast) :=
  res_bind (copy_scopes h (elems m (a_scope a))) (fun '(h, scs) =>
  let '(m, s) := fresh_slice m scs in
  Ok (h, m, mkAst (a_file a) (a_dir a) (a_name a) (a_ext a) s)).

(** ** Files: helper/helper.go *)

(** The contents of regular files, by path.  Directories, permissions and
    links are behind the oracles below. *)
Definition fs := str -> option str.
Definition fs_set (f : fs) (path : str) (c : str) : fs :=
  fun q => if bool_decide (q = path) then Some c else f q.

(** Everything outside the repository that the file functions call.
    [None] is an error. *)
Record env := mkEnv
  { en_format : str -> option str;              (* go/format.Source *)
    en_imports : str -> str -> option str;      (* imports.Process(file, data) *)
    en_dir : str -> str;                        (* filepath.Dir *)
    en_base : str -> str;                       (* filepath.Base *)
    en_ext : str -> str;                        (* filepath.Ext *)
    en_not_exist : str -> bool;                 (* os.Open's error for a path without a regular file is
                                                   ErrNotExist (it is not for a directory, say) *)
    en_can_open : str -> bool;                  (* os.Open and io.ReadAll of an existing file succeed *)
    en_mkdir : str -> bool;                     (* os.MkdirAll succeeds *)
    en_create : str -> bool;                    (* os.Create succeeds *)
    en_write : str -> str -> nat }.             (* bytes f.Write really writes *)

(** helper.go:38-40 and 66-68 *)
Definition go_path (file : str) : str :=
  if has_suffix file $".go" then file else file ++ $".go".

(** helper.go:37-59 [ReadFile] *)
Definition read_file (e : env) (f : fs) (file : str) : str + error :=
  let file := go_path file in
  match f file with
  | None => inr (if en_not_exist e file then ErrNotExist else ErrOther)
  | Some buf =>
    if negb (en_can_open e file) then inr ErrOther
    else match en_format e buf with None => inr ErrOther | Some t => inl t end
  end.

(** helper.go:75-87: the bytes that get written *)
Definition save_data (e : env) (file data : str) (autoImport : bool) : str :=
  if autoImport
  then default data (en_imports e file data)
  else default data (en_format e data).

(** helper.go:61-105 [SaveFile]: the sequence of file system states it goes
    through (each one is also what a crash at that point leaves behind; a crash
    during the write leaves some prefix), the final state, and the error. *)
Definition save_file (e : env) (f : fs) (file data : str) (autoImport : bool)
  : list fs * fs * option error :=
  match data with
  | [] => ([f], f, Some ErrOther)                                 (* 62-64 *)
  | _ :: _ =>
    let file := go_path file in
    let formatted := save_data e file data autoImport in
    if negb (en_mkdir e (en_dir e file)) then ([f], f, Some ErrOther)   (* 89-92 *)
    else if negb (en_create e file) then ([f; f], f, Some ErrOther)     (* 94-97 *)
    else
      (* os.Create truncates; f.Write then writes byte after byte *)
      let n := Nat.min (en_write e file formatted) (length formatted) in
      let states := f :: f :: map (fun k => fs_set f file (take k formatted)) (seq 0 (S n)) in
      (states, fs_set f file (take n formatted),
       if Nat.ltb n (length formatted) then Some ErrOther else None)    (* 100-104 *)
  end.

(** ast.go:226-237 [Save] *)
Definition ast_save (e : env) (f : fs) (h : heap) (m : arrays) (a : ast) (file : str) (autoImport : bool)
  : res (list fs * fs * option error) :=
  res_bind (save_text h (elems m (a_scope a))) (fun t =>
  Ok (save_file e f file t autoImport)).

(** ast.go:67-95 [ParseAst]; the scopes end up in a slice whose spare capacity
    [spare] is whatever repeated append left. *)
Definition parse_ast (e : env) (f : fs) (ord : nat -> list (str * ext)) (spare : nat)
    (h : heap) (m : arrays) (file : str) : res (heap * arrays * (ast + error)) :=
  match read_file e f file with
  | inr err => Ok (h, m, inr err)
  | inl data =>
    res_bind (parse_scope ord h 0 data) (fun '(h, scs) =>
    let cells := map Some scs in
    res_bind (find_package_name h cells) (fun r =>
    match r with
    | inr err => Ok (h, m, inr err)
    | inl _ =>
      Ok (h, m ++ [cells ++ repeat None spare],
          inl (mkAst file (en_dir e file) (en_base e file) (en_ext e file)
                 (mkSlice (length m) 0 (length cells) (length cells + spare))))
    end))
  end.
