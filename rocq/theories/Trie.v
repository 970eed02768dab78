(** trie.go: the byte trie (unexported, used by the package's own tests). *)
From Verif Require Export Kind.

Section trie.
Context {T : Type} (zero : T).   (* Go's zero value [var zero T] *)

(** trie.go:14-17 [trie_]; [None] is the nil map.  Children are only created by
    [Insert] and never shared, so the pointer structure is a tree. *)
Inductive trie := Trie (value : T) (next : option (ascii -> option trie)).

Definition t_value (t : trie) : T := match t with Trie v _ => v end.
Definition t_next (t : trie) : option (ascii -> option trie) := match t with Trie _ n => n end.

(** trie.go:125-132 [Next]; the receiver may be nil *)
Definition trie_next (t : option trie) (key : ascii) : option trie * bool :=
  match t with
  | None => (None, false)
  | Some t => match t_next t with
              | None => (None, false)
              | Some m => match m key with Some n => (Some n, true) | None => (None, false) end
              end
  end.

(** trie.go:117-123 [Value] *)
Definition trie_value (t : option trie) : T :=
  match t with None => zero | Some t => t_value t end.

(** trie.go:33-49 [Insert], as a pair: the child that is returned, and how the
    receiver looks once that child has become [c]. *)
Definition insert_child (t : trie) (key : ascii) (value : T) : trie :=
  match t_next t with
  | Some m => match m key with
              | Some (Trie _ n) => Trie value n
              | None => Trie value None
              end
  | None => Trie value None
  end.
Definition set_child (t : trie) (key : ascii) (c : trie) : trie :=
  let m := match t_next t with Some m => m | None => fun _ => None end in
  Trie (t_value t) (Some (fun k => if bool_decide (k = key) then Some c else m k)).

(** trie.go:19-31 [AddText]: the loop over [for i := range s]. *)
Fixpoint add_bytes (t : trie) (bs : list ascii) (value : T) : trie :=
  match bs with
  | [] => Trie value (t_next t)
  | c :: r => set_child t c (add_bytes (insert_child t c zero) r value)
  end.
Definition add_text (t : trie) (s : str) (value : T) : trie :=
  add_bytes t (range_bytes s) value.

(** The search loop shared by trie.go:51-65, 67-81, 83-98 and 100-115. *)
Fixpoint find_bytes (t : option trie) (bs : list ascii) : T * bool :=
  match bs with
  | [] => (trie_value t, true)
  | c :: r => let '(n, ok) := trie_next t c in
              if ok then find_bytes n r else (trie_value n, false)
  end.
(** trie.go:51-65 [FindText] ranges over rune starts; trie.go:83-98 [FindByte]
    over all bytes; the reverse versions (67-81, 100-115) index from the end. *)
Definition on_trie (t : option trie) (bs : list ascii) : T * bool :=
  match t with None => (zero, false) | Some _ => find_bytes t bs end.
Definition find_text (t : option trie) (s : str) := on_trie t (range_bytes s).
Definition find_byte (t : option trie) (b : str) := on_trie t b.
Definition find_text_rev (t : option trie) (s : str) := on_trie t (rev s).
Definition find_byte_rev (t : option trie) (b : str) := on_trie t (rev b).

(** trie.go:134-141 [newTrie]; the list is one iteration order of the map. *)
Definition empty_trie : trie := Trie zero None.
Definition new_trie (entries : list (str * T)) : trie :=
  fold_left (fun t '(k, v) => add_text t k v) entries empty_trie.
End trie.
Arguments trie : clear implicits.
