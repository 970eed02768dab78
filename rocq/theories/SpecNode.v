(** Specification vocabulary for nodes: what a user can observe through
    Next(), Prev(), Line(), Kind(), Text(). *)
From Verif Require Export Node.

#[global] Arguments next_of : simpl never.
#[global] Arguments prev_of : simpl never.
#[global] Arguments line_of : simpl never.
#[global] Arguments kind_of : simpl never.
#[global] Arguments text_of : simpl never.

(** The node exists. *)
Definition valid (h : heap) (l : loc) : Prop := l < length h.
(** The pointer is nil or points to an existing node. *)
Definition live (h : heap) (p : ptr) : Prop :=
  match p with None => True | Some l => valid h l end.

(** Links are symmetric, no node is its own neighbour, links do not dangle. *)
Record wf (h : heap) : Prop :=
  { wf_sym : forall a b, next_of h (Some a) = Some b <-> prev_of h (Some b) = Some a;
    wf_irrefl : forall a, next_of h (Some a) <> Some a;
    wf_next_valid : forall a b, next_of h (Some a) = Some b -> valid h b;
    wf_prev_valid : forall a b, prev_of h (Some a) = Some b -> valid h b }.

(** The nodes [ls] are linked in this order, in both directions; [p] comes
    before the first and [q] after the last. *)
Fixpoint seg (h : heap) (p : ptr) (ls : list loc) (q : ptr) : Prop :=
  match ls with
  | [] => True
  | l :: r =>
    valid h l /\ prev_of h (Some l) = p /\
    next_of h (Some l) = (match r with [] => q | m :: _ => Some m end) /\
    seg h (Some l) r q
  end.
(** A complete chain: nil before the first and after the last node. *)
Definition chain (h : heap) (ls : list loc) : Prop := seg h None ls None.

(** The same nodes exist and have the same line, kind and text. *)
Definition same_payload (h h' : heap) : Prop :=
  length h' = length h /\
  forall p, line_of h' p = line_of h p /\ kind_of h' p = kind_of h p /\ text_of h' p = text_of h p.

(** A node's two links are the same in both heaps. *)
Definition same_links (h h' : heap) (l : loc) : Prop :=
  next_of h' (Some l) = next_of h (Some l) /\ prev_of h' (Some l) = prev_of h (Some l).

(** [b] is the next node of [a]. *)
Definition nxt (h : heap) (a b : loc) : Prop := next_of h (Some a) = Some b.

(** No node reaches itself by one or more Next() steps. *)
Definition acyclic (h : heap) : Prop := forall a, ~ tc (nxt h) a a.

(** [x] is the node [p] or one of its two neighbours. *)
Definition near (h : heap) (p : ptr) (x : loc) : Prop :=
  p = Some x \/ next_of h p = Some x \/ prev_of h p = Some x.

(** Two nodes, possibly in different heaps, with the same line, kind and text. *)
Definition same_node (h : heap) (a : loc) (h' : heap) (b : loc) : Prop :=
  line_of h' (Some b) = line_of h (Some a) /\
  kind_of h' (Some b) = kind_of h (Some a) /\
  text_of h' (Some b) = text_of h (Some a).

(** What an iteration over the nodes [ls] does. *)
Fixpoint iter_spec {S} (fn : loc -> S -> res (S * bool)) (ls : list loc) (s : S) : res (S * ptr) :=
  match ls with
  | [] => Ok (s, None)
  | l :: r =>
    match fn l s with
    | Ok (s', true) => iter_spec fn r s'
    | Ok (s', false) => Ok (s', Some l)
    | Panic => Panic
    | OutOfFuel => OutOfFuel
    end
  end.

(** The arguments of Combine that are absorbed into [n]. *)
Definition absorbed (n : ptr) (nns : list ptr) : list ptr :=
  filter (fun p => p <> None /\ p <> n) nns.

(** The combined text. *)
Definition combined (rev_ : bool) (t : str) (ts : list str) : str :=
  if rev_ then concat (rev ts) ++ t else t ++ concat ts.

(** What a user reads off a node: Line(), Text(), Kind(). *)
Notation tok := (Z * str * kind)%type (only parsing).
Definition pay (h : heap) (l : loc) : tok := (line_of h (Some l), text_of h (Some l), kind_of h (Some l)).
