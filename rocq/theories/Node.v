(** node.go: nodes, links and the public Node API, over an explicit heap. *)
From Verif Require Export Kind.

(** A node pointer: [None] is nil, [Some l] the node allocated as number [l].
    The heap is the list of all nodes ever allocated (garbage is never
    reclaimed in the model; Go's collector is unobservable).  Pointers in Go
    never dangle; reading through a location outside the heap gives nil/zero
    values in the model, and every theorem assumes pointers that are inside. *)
Notation loc := nat (only parsing).
Notation ptr := (option loc) (only parsing).

(** node.go:44-51.  Go's int (64 bit) is modelled by Z: line numbers cannot
    overflow for any text that fits in memory. *)
Record node := mkNode
  { n_line : Z; n_kind : kind; n_text : str; n_prev : ptr; n_next : ptr }.
Notation heap := (list node) (only parsing).

Definition with_prev (p : ptr) (n : node) : node :=
  mkNode (n_line n) (n_kind n) (n_text n) p (n_next n).
Definition with_next (p : ptr) (n : node) : node :=
  mkNode (n_line n) (n_kind n) (n_text n) (n_prev n) p.
Definition with_kind (k : kind) (n : node) : node :=
  mkNode (n_line n) k (n_text n) (n_prev n) (n_next n).
Definition with_text (t : str) (n : node) : node :=
  mkNode (n_line n) (n_kind n) t (n_prev n) (n_next n).

(** Pointer comparison [==]. *)
Definition ptr_eqb (a b : ptr) : bool := bool_decide (a = b).

(** Field access through a possibly nil pointer, [d] being the nil result. *)
Definition field {A} (d : A) (f : node -> A) (h : heap) (p : ptr) : A :=
  match p with
  | None => d
  | Some l => match h !! l with Some n => f n | None => d end
  end.

(** node.go:123-129 [Prev], 132-138 [Next] *)
Definition prev_of (h : heap) (p : ptr) : ptr := field None n_prev h p.
Definition next_of (h : heap) (p : ptr) : ptr := field None n_next h p.
(** node.go:356-362 [Line], 365-371 [Kind], 381-386 [Text] *)
Definition line_of (h : heap) (p : ptr) : Z := field (-2)%Z n_line h p.
Definition kind_of (h : heap) (p : ptr) : kind := field KNone n_kind h p.
Definition text_of (h : heap) (p : ptr) : str := field [] n_text h p.

(** node.go:374-378 [SetKind], 411-416 [SetText] *)
Definition set_kind (h : heap) (p : ptr) (k : kind) : heap :=
  match p with None => h | Some l => alter (with_kind k) l h end.
Definition set_text (h : heap) (p : ptr) (t : str) : heap :=
  match p with None => h | Some l => alter (with_text t) l h end.

(** Allocation of [&Node{...}]. *)
Definition alloc (h : heap) (n : node) : heap * loc := (h ++ [n], length h).

(** node.go:18-24 [NewNode]; [kinds] is the variadic argument. *)
Definition new_node (h : heap) (line : Z) (text : str) (kinds : list kind) : heap * loc :=
  match kinds with
  | k :: _ => alloc h (mkNode line k text None None)
  | [] => alloc h (mkNode line (kind_new text) text None None)
  end.

(** node.go:434-445 [setPrev] *)
Definition set_prev (h : heap) (n nn : ptr) : heap :=
  match n with
  | None => h
  | Some l =>
    if ptr_eqb n nn then h
    else
      let h := match prev_of h n with
               | Some p => alter (with_next None) p h
               | None => h
               end in
      alter (with_prev nn) l h
  end.

(** node.go:447-458 [setNext] *)
Definition set_next (h : heap) (n nn : ptr) : heap :=
  match n with
  | None => h
  | Some l =>
    if ptr_eqb n nn then h
    else
      let h := match next_of h n with
               | Some p => alter (with_prev None) p h
               | None => h
               end in
      alter (with_next nn) l h
  end.

(** node.go:152-170 [InsertPrev] *)
Definition insert_prev (h : heap) (n nn : ptr) : heap * (ptr * ptr) :=
  if ptr_eqb n nn || ptr_eqb (prev_of h n) nn then (h, (None, None))
  else
    let oldPrev := prev_of h nn in
    let oldNext := next_of h nn in
    let nPrev := prev_of h n in
    let h := set_prev h n nn in
    let h := set_next h nn n in
    let h := set_prev h nn nPrev in
    let h := set_next h nPrev nn in
    let h := set_next h oldPrev None in
    let h := set_prev h oldNext None in
    (h, (oldPrev, oldNext)).

(** node.go:174-192 [InsertNext] *)
Definition insert_next (h : heap) (n nn : ptr) : heap * (ptr * ptr) :=
  if ptr_eqb n nn || ptr_eqb (next_of h n) nn then (h, (None, None))
  else
    let oldPrev := prev_of h nn in
    let oldNext := next_of h nn in
    let nNext := next_of h n in
    let h := set_next h n nn in
    let h := set_prev h nn n in
    let h := set_next h nn nNext in
    let h := set_prev h nNext nn in
    let h := set_next h oldPrev None in
    let h := set_prev h oldNext None in
    (h, (oldPrev, oldNext)).

(** node.go:197-211 [ReplacePrev] *)
Definition replace_prev (h : heap) (n nn : ptr) : heap * (ptr * ptr) :=
  if ptr_eqb n nn || ptr_eqb (prev_of h n) nn then (h, (None, None))
  else
    let oldPrev := prev_of h n in
    let oldNext := next_of h nn in
    let h := set_prev h n nn in
    let h := set_next h nn n in
    let h := set_next h oldPrev None in
    let h := set_prev h oldNext None in
    (h, (oldPrev, oldNext)).

(** node.go:216-230 [ReplaceNext] *)
Definition replace_next (h : heap) (n nn : ptr) : heap * (ptr * ptr) :=
  if ptr_eqb n nn || ptr_eqb (next_of h n) nn then (h, (None, None))
  else
    let oldPrev := prev_of h nn in
    let oldNext := next_of h n in
    let h := set_next h n nn in
    let h := set_prev h nn n in
    let h := set_next h oldPrev None in
    let h := set_prev h oldNext None in
    (h, (oldPrev, oldNext)).

(** node.go:233-244 [TakePrev] *)
Definition take_prev (h : heap) (n : ptr) : heap * ptr :=
  let removed := prev_of h n in
  let newPrev := prev_of h removed in
  let h := set_prev h n newPrev in
  let h := set_next h newPrev n in
  let h := set_next h removed None in
  let h := set_prev h removed None in
  (h, removed).

(** node.go:247-258 [TakeNext] *)
Definition take_next (h : heap) (n : ptr) : heap * ptr :=
  let removed := next_of h n in
  let newNext := next_of h removed in
  let h := set_next h n newNext in
  let h := set_prev h newNext n in
  let h := set_next h removed None in
  let h := set_prev h removed None in
  (h, removed).

(** node.go:261-267 [RemovePrev] *)
Definition remove_prev (h : heap) (n : ptr) : heap * ptr :=
  let removed := prev_of h n in
  let h := set_prev h n None in
  let h := set_next h removed None in
  (h, removed).

(** node.go:270-276 [RemoveNext] *)
Definition remove_next (h : heap) (n : ptr) : heap * ptr :=
  let removed := next_of h n in
  let h := set_next h n None in
  let h := set_prev h removed None in
  (h, removed).

(** node.go:347-353 [Isolate]; both neighbours are read before any change to
    the node's own links can matter: [n.Prev()] first, [n.Next()] after the
    first [setNext]. *)
Definition isolate (h : heap) (n : ptr) : heap :=
  let h := set_next h (prev_of h n) None in
  let h := set_prev h (next_of h n) None in
  let h := set_prev h n None in
  let h := set_next h n None in
  h.

(** The loop of CombinePrev/CombineNext (node.go:296-304, 331-339): texts of
    the absorbed nodes are appended to [buf] and the nodes isolated. *)
Fixpoint combine_loop (h : heap) (n : ptr) (nns : list ptr) (buf : list str) : heap * list str :=
  match nns with
  | [] => (h, buf)
  | nn :: r =>
    if ptr_eqb nn None || ptr_eqb n nn then combine_loop h n r buf
    else combine_loop (isolate h nn) n r (buf ++ [text_of h nn])
  end.

(** node.go:317-344 [CombineNext] ([rev = false]) and 282-311 [CombinePrev]
    ([rev = true]); they differ only in [slices.Reverse(buf)].
    [n.text = ...] (308, 341) on a nil [n] panics. *)
Definition combine (rev_ : bool) (h : heap) (n : ptr) (k : kind) (nns : list ptr) : res (heap * ptr) :=
  let h := set_kind h n k in
  match nns with
  | [] => Ok (h, n)
  | a :: rest =>
    let n' := match n with None => a | Some _ => n end in
    let nns' := match n with None => rest | Some _ => nns end in
    let '(h, buf) := combine_loop h n' nns' [text_of h n'] in
    let buf := if rev_ then reverse buf else buf in
    match n' with
    | None => Panic
    | Some l => Ok (alter (with_text (join buf)) l h, n')
    end
  end.
Definition combine_prev := combine true.
Definition combine_next := combine false.

(** node.go:98-106 [loop]: [fn] may change the state (captured variables and
    heap); the next node is read from the state after the callback. *)
Fixpoint loop {S : Type} (fuel : nat) (iter : S -> loc -> ptr)
    (fn : loc -> S -> res (S * bool)) (p : ptr) (s : S) : res (S * ptr) :=
  match p with
  | None => Ok (s, None)
  | Some l =>
    match fuel with
    | O => OutOfFuel
    | S f =>
      match fn l s with
      | Ok (s', true) => loop f iter fn (iter s' l) s'
      | Ok (s', false) => Ok (s', Some l)
      | Panic => Panic
      | OutOfFuel => OutOfFuel
      end
    end
  end.

(** node.go:118-120 [IterNext], 111-113 [IterPrev]; [hp] projects the heap out
    of the callback's state. *)
Definition iter_next {S} (hp : S -> heap) (fuel : nat) (p : ptr)
    (fn : loc -> S -> res (S * bool)) (s : S) : res (S * ptr) :=
  loop fuel (fun s l => next_of (hp s) (Some l)) fn p s.
Definition iter_prev {S} (hp : S -> heap) (fuel : nat) (p : ptr)
    (fn : loc -> S -> res (S * bool)) (s : S) : res (S * ptr) :=
  loop fuel (fun s l => prev_of (hp s) (Some l)) fn p s.

(** An iteration whose callback does not touch the heap, with callback state
    [A].  On an acyclic chain it makes at most [length h] calls, so
    [S (length h)] is enough fuel; on a cyclic chain only divergence (or an
    earlier stop) is lost. *)
Definition scan_next {A} (h : heap) (p : ptr) (fn : loc -> A -> A * bool) (a : A) : res (A * ptr) :=
  loop (S (length h)) (fun _ l => next_of h (Some l)) (fun l a => Ok (fn l a)) p a.
Definition scan_prev {A} (h : heap) (p : ptr) (fn : loc -> A -> A * bool) (a : A) : res (A * ptr) :=
  loop (S (length h)) (fun _ l => prev_of h (Some l)) (fun l a => Ok (fn l a)) p a.

(** node.go:141-143 [First], 146-148 [Last] *)
Definition first_of (h : heap) (p : ptr) : res ptr :=
  res_bind (scan_prev h p (fun l u => (u, negb (ptr_eqb (prev_of h (Some l)) None))) tt)
           (fun r => Ok (snd r)).
Definition last_of (h : heap) (p : ptr) : res ptr :=
  res_bind (scan_next h p (fun l u => (u, negb (ptr_eqb (next_of h (Some l)) None))) tt)
           (fun r => Ok (snd r)).

(** node.go:27-41 [NewNodes]: the loop over [texts[1:]]. *)
Fixpoint new_nodes_loop (h : heap) (cur : ptr) (startLine : Z) (texts : list str) : heap :=
  match texts with
  | [] => h
  | t :: r =>
    let '(h, n) := new_node h startLine t [] in
    let '(h, _) := insert_next h cur (Some n) in
    new_nodes_loop h (next_of h cur) (startLine + count_nl t) r
  end.
Definition new_nodes (h : heap) (startLine : Z) (texts : list str) : heap * ptr :=
  match texts with
  | [] => (h, None)
  | t :: r =>
    let '(h, head) := new_node h startLine t [] in
    (new_nodes_loop h (Some head) startLine r, Some head)
  end.

(** node.go:73-96 [deepCopy] *)
Fixpoint deep_copy (fuel : nat) (h : heap) (n prev next : ptr) : res (heap * ptr) :=
  match n with
  | None => Ok (h, None)
  | Some l =>
    match fuel with
    | O => OutOfFuel
    | S f =>
      let '(h, nn) := alloc h (mkNode (line_of h n) (kind_of h n) (text_of h n) None None) in
      res_bind (match prev with
                | None => deep_copy f h (prev_of h n) None (Some nn)
                | Some _ => Ok (h, prev)
                end) (fun '(h, prev) =>
      res_bind (match next with
                | None => deep_copy f h (next_of h n) (Some nn) None
                | Some _ => Ok (h, next)
                end) (fun '(h, next) =>
      Ok (alter (with_next next) nn (alter (with_prev prev) nn h), Some nn)))
    end
  end.

(** node.go:57-71 [Copy]; [rel] is [copyRelativeNode[0]], false if absent.
    Fuel: the recursion visits every node of an acyclic chain once. *)
Definition copy (h : heap) (n : ptr) (rel : bool) : res (heap * ptr) :=
  match n with
  | None => Ok (h, None)
  | Some l =>
    if rel then deep_copy (S (length h)) h n None None
    else let '(h, nn) := alloc h (mkNode (line_of h n) (kind_of h n) (text_of h n) None None) in
         Ok (h, Some nn)
  end.

(** node.go:421-427 [Description] *)
Definition description (h : heap) (n : ptr) : str :=
  match n with
  | None => $"<nil>"
  | Some _ => dec_Z (line_of h n + 1) ++ $" .... " ++ tidy_text (text_of h n)
              ++ $" .... *Node." ++ kind_string (kind_of h n)
  end.
