(** Specification vocabulary for goroutines that use the library at the same time,
    each on nodes of its own.

    A goroutine holds a table of the nodes it has come across.  What it does next
    is any function of what it has seen so far; it names nodes by their positions
    in its table and sees of a node only its line, text and kind, and which
    position of the table it is (pointers can be compared, but not printed). *)
From Verif Require Export SpecHist SpecLocal.

Notation table := (list ptr) (only parsing).
(** The node at a position; [None], and positions beyond the table, mean nil. *)
Definition at_pos (K : table) (i : option nat) : ptr :=
  match i with None => None | Some i => default None (K !! i) end.
(** The first position of a node; [None] is nil. *)
Definition pos (K : table) (p : ptr) : option nat :=
  match p with None => None | Some _ => fst <$> list_find (eq p) K end.

(** The call with other node arguments. *)
Definition with_args (f : ptr -> ptr) (o : op) : op :=
  match o with
  | ONewNode line t ks => ONewNode line t ks
  | ONewNodes line ts => ONewNodes line ts
  | OCopy n rel => OCopy (f n) rel
  | OInsertPrev n nn => OInsertPrev (f n) (f nn)
  | OInsertNext n nn => OInsertNext (f n) (f nn)
  | OReplacePrev n nn => OReplacePrev (f n) (f nn)
  | OReplaceNext n nn => OReplaceNext (f n) (f nn)
  | OTakePrev n => OTakePrev (f n)
  | OTakeNext n => OTakeNext (f n)
  | ORemovePrev n => ORemovePrev (f n)
  | ORemoveNext n => ORemoveNext (f n)
  | OIsolate n => OIsolate (f n)
  | OCombinePrev n k nns => OCombinePrev (f n) k (map f nns)
  | OCombineNext n k nns => OCombineNext (f n) k (map f nns)
  | OSetKind n k => OSetKind (f n) k
  | OSetText n t => OSetText (f n) t
  end.

(** One step of a goroutine: a call that changes nodes (its node arguments are
    positions), reading a link, reading a node, or parsing a text. *)
Inductive cmd : Type :=
| CCall (o : op)
| CNext (i : option nat)
| CPrev (i : option nat)
| CRead (i : option nat)
| CParse (startLine : Z) (text : str).
(** What it learns: the nodes it got, by position; line, text and kind of a node;
    line and kind of the scopes it got, with their root nodes. *)
Inductive obs : Type :=
| SawNodes (ps : list (option nat))
| SawNode (line : Z) (text : str) (k : kind)
| SawScopes (scs : list (Z * str * option nat)).

(** [ord] is the order in which Go goes through its tables in this step. *)
Definition step (ord : nat -> list (str * ext)) (h : heap) (K : table) (c : cmd) : res (heap * table * obs) :=
  let got h ps := Ok (h, K ++ ps, SawNodes (map (pos (K ++ ps)) ps)) in
  match c with
  | CCall o => res_bind (exec h (with_args (at_pos K) o)) (fun r => got (fst r) (snd r))
  | CNext i => got h [next_of h (at_pos K i)]
  | CPrev i => got h [prev_of h (at_pos K i)]
  | CRead i => let p := at_pos K i in Ok (h, K, SawNode (line_of h p) (text_of h p) (kind_of h p))
  | CParse n text => res_bind (parse_scope ord h n text) (fun r =>
      let K' := K ++ map sc_node (snd r) in
      Ok (fst r, K', SawScopes (map (fun sc => (scope_line (Some sc), scope_kind_of (Some sc), pos K' (sc_node sc))) (snd r))))
  end.

(** A goroutine: its program, its table and what it has seen. *)
Notation program := (list obs -> cmd) (only parsing).
Notation routine := (table * list obs)%type (only parsing).
Definition turn ord (h : heap) (c : program) (r : routine) : res (heap * routine) :=
  res_bind (step ord h (fst r) (c (snd r))) (fun x => Ok (fst (fst x), (snd (fst x), snd r ++ [snd x]))).

(** A goroutine that runs alone, for [n] steps. *)
Fixpoint alone (ords : nat -> nat -> list (str * ext)) (n : nat) (h : heap) (c : program) (r : routine) : res (heap * routine) :=
  match n with
  | O => Ok (h, r)
  | S n => res_bind (turn (ords 0) h c r) (fun x => alone (fun i => ords (S i)) n (fst x) c (snd x))
  end.
(** Several goroutines on one heap: [sched] says whose turn it is. *)
Fixpoint together (ords : nat -> nat -> list (str * ext)) (sched : list nat) (h : heap) (cs : nat -> program) (rs : list routine) : res (heap * list routine) :=
  match sched with
  | [] => Ok (h, rs)
  | i :: sched =>
    match rs !! i with
    | None => together (fun i => ords (S i)) sched h cs rs
    | Some r => res_bind (turn (ords 0) h (cs i) r) (fun x => together (fun i => ords (S i)) sched (fst x) cs (<[i := snd x]> rs))
    end
  end.
(** The number of turns of goroutine [i]. *)
Definition turns (i : nat) (sched : list nat) : nat := length (filter (fun j => j = i) sched).

(** The nodes that can be got at from a table by Next() and Prev(). *)
Inductive reach (h : heap) (K : table) : loc -> Prop :=
| reach_here l : Some l ∈ K -> reach h K l
| reach_next a b : reach h K a -> next_of h (Some a) = Some b -> reach h K b
| reach_prev a b : reach h K a -> prev_of h (Some a) = Some b -> reach h K b.
