(** Histories of calls to the Node API. *)
From Verif Require Export SpecNode.

(** One call of a function or method that can change nodes.  (The others --
    Prev, Next, First, Last, Iter*, Line, Kind, Text, Description ... -- only
    read; a callback of Iter* that changes nodes does so by such calls.) *)
Inductive op : Type :=
| ONewNode (line : Z) (text : str) (kinds : list kind)
| ONewNodes (line : Z) (texts : list str)
| OCopy (n : ptr) (rel : bool)
| OInsertPrev (n nn : ptr)
| OInsertNext (n nn : ptr)
| OReplacePrev (n nn : ptr)
| OReplaceNext (n nn : ptr)
| OTakePrev (n : ptr)
| OTakeNext (n : ptr)
| ORemovePrev (n : ptr)
| ORemoveNext (n : ptr)
| OIsolate (n : ptr)
| OCombinePrev (n : ptr) (k : kind) (nns : list ptr)
| OCombineNext (n : ptr) (k : kind) (nns : list ptr)
| OSetKind (n : ptr) (k : kind)
| OSetText (n : ptr) (t : str).

(** Receiver and node arguments. *)
Definition args (o : op) : list ptr :=
  match o with
  | ONewNode _ _ _ | ONewNodes _ _ => []
  | OInsertPrev n nn | OInsertNext n nn | OReplacePrev n nn | OReplaceNext n nn => [n; nn]
  | OCombinePrev n _ nns | OCombineNext n _ nns => n :: nns
  | OCopy n _ | OTakePrev n | OTakeNext n | ORemovePrev n | ORemoveNext n | OIsolate n
  | OSetKind n _ | OSetText n _ => [n]
  end.

(** The state after the call and the nodes it returns. *)
Definition exec (h : heap) (o : op) : res (heap * list ptr) :=
  let pair_ r := Ok (fst r, [fst (snd r); snd (snd r)]) in
  let one r := Ok (fst r, [snd r]) in
  match o with
  | ONewNode line t ks => let '(h', l) := new_node h line t ks in Ok (h', [Some l])
  | ONewNodes line ts => one (new_nodes h line ts)
  | OCopy n rel => res_bind (copy h n rel) one
  | OInsertPrev n nn => pair_ (insert_prev h n nn)
  | OInsertNext n nn => pair_ (insert_next h n nn)
  | OReplacePrev n nn => pair_ (replace_prev h n nn)
  | OReplaceNext n nn => pair_ (replace_next h n nn)
  | OTakePrev n => one (take_prev h n)
  | OTakeNext n => one (take_next h n)
  | ORemovePrev n => one (remove_prev h n)
  | ORemoveNext n => one (remove_next h n)
  | OIsolate n => Ok (isolate h n, [])
  | OCombinePrev n k nns => res_bind (combine_prev h n k nns) one
  | OCombineNext n k nns => res_bind (combine_next h n k nns) one
  | OSetKind n k => Ok (set_kind h n k, [])
  | OSetText n t => Ok (set_text h n t, [])
  end.

(** Arguments exist or are nil: Go has no dangling pointers. *)
Definition legal (h : heap) (o : op) : Prop := Forall (live h) (args o).

(** [hist h ops h']: the calls [ops], each with existing or nil arguments and
    each returning, lead from [h] to [h']. *)
Inductive hist : heap -> list op -> heap -> Prop :=
| hist_nil h : hist h [] h
| hist_cons h o h1 rs ops h2 :
    legal h o -> exec h o = Ok (h1, rs) -> hist h1 ops h2 -> hist h (o :: ops) h2.

(** A client that starts out knowing the nodes [K], learns of more nodes only
    by reading links of nodes it knows and from the results of its calls, and
    passes only nodes it knows (or nil): [play h K h' K']. *)
Inductive play : heap -> list ptr -> heap -> list ptr -> Prop :=
| play_stop h K : play h K h K
| play_next h K p h' K' : p ∈ K -> play h (next_of h p :: K) h' K' -> play h K h' K'
| play_prev h K p h' K' : p ∈ K -> play h (prev_of h p :: K) h' K' -> play h K h' K'
| play_call h K o h1 rs h' K' :
    Forall (fun p => p = None \/ p ∈ K) (args o) ->
    exec h o = Ok (h1, rs) -> play h1 (rs ++ K) h' K' -> play h K h' K'.
