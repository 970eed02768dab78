(** An abstract view of nodes: rows of cards.  All nodes lie in rows, each in
    exactly one place; a card shows the line, text and kind of its node.  This file
    says what each call of the Node API does to the rows and cards, without
    mentioning links. *)
From Verif Require Export SpecNode SpecHist.

Record board := Board { rows : list (list loc); cards : list tok }.
(** The board shows the nodes [h]: the cards are those of the nodes; rows are
    complete chains; every node is in one row, once. *)
Definition shows (h : heap) (b : board) : Prop :=
  SpecNode.wf h /\ cards b = map (pay h) (seq 0 (length h)) /\ Forall (chain h) (rows b) /\ concat (rows b) ≡ₚ seq 0 (length h).

Definition with_text_card (t : str) (c : tok) : tok := let '(l, _, k) := c in (l, t, k).
Definition with_kind_card (k : kind) (c : tok) : tok := let '(l, t, _) := c in (l, t, k).
Definition card_text (T : list tok) (a : loc) : str := match T !! a with Some (_, t, _) => t | None => [] end.

(** Node [a] is put into a row of its own; its row falls into two. *)
Inductive cut_out : list (list loc) -> loc -> list (list loc) -> Prop :=
| cut_at R xs a ys Q : R ≡ₚ (xs ++ a :: ys) :: Q -> cut_out R a (xs :: [a] :: ys :: Q).
Inductive cuts : list (list loc) -> list loc -> list (list loc) -> Prop :=
| cuts_nil R : cuts R [] R
| cuts_cons R a R1 l R2 : cut_out R a R1 -> cuts R1 l R2 -> cuts R (a :: l) R2.
(** The kind NewNode gives. *)
Definition given (t : str) (ks : list kind) : kind := match ks with k :: _ => k | [] => kind_new t end.
(** The cards NewNodes makes: the first two lines are [line], then the newlines of
    the texts after the first count. *)
Fixpoint new_cards (line : Z) (ts : list str) : list tok :=
  match ts with [] => [] | t :: r => (line, t, kind_new t) :: new_cards (line + count_nl t)%Z r end.

(** [step b o b' rs]: on board [b] the call [o] gives [b'] and returns [rs]. *)
Inductive step : board -> op -> board -> list ptr -> Prop :=
(** new nodes *)
| st_new_node R T line t ks :
    step (Board R T) (ONewNode line t ks) (Board ([length T] :: R) (T ++ [(line, t, given t ks)])) [Some (length T)]
| st_new_nodes_none R T line : step (Board R T) (ONewNodes line []) (Board R T) [None]
| st_new_nodes R T line t ts :
    step (Board R T) (ONewNodes line (t :: ts))
      (Board (seq (length T) (Datatypes.S (length ts)) :: R) (T ++ (line, t, kind_new t) :: new_cards line ts)) [Some (length T)]
| st_copy_nil R T rel : step (Board R T) (OCopy None rel) (Board R T) [None]
| st_copy_one R T n c : T !! n = Some c ->
    step (Board R T) (OCopy (Some n) false) (Board ([length T] :: R) (T ++ [c])) [Some (length T)]
(** the copied row: new nodes with the same cards, in the same order *)
| st_copy_row R T n xs ys Q xs' c ys' T' : R ≡ₚ (xs ++ n :: ys) :: Q ->
    xs' ++ c :: ys' ≡ₚ seq (length T) (length (xs ++ n :: ys)) -> length xs' = length xs ->
    T `prefix_of` T' -> length T' = length T + length (xs ++ n :: ys) ->
    (forall i a, (xs ++ n :: ys) !! i = Some a -> exists b, (xs' ++ c :: ys') !! i = Some b /\ T' !! b = T !! a) ->
    step (Board R T) (OCopy (Some n) true) (Board ((xs' ++ c :: ys') :: R) T') [Some c]
(** cards *)
| st_set_text R T n t : step (Board R T) (OSetText (Some n) t) (Board R (alter (with_text_card t) n T)) []
| st_set_kind R T n k : step (Board R T) (OSetKind (Some n) k) (Board R (alter (with_kind_card k) n T)) []
| st_set_text_nil R T t : step (Board R T) (OSetText None t) (Board R T) []
| st_set_kind_nil R T k : step (Board R T) (OSetKind None k) (Board R T) []
(** InsertNext *)
| st_insert_next R T n nn xs ys us vs Q : R ≡ₚ (xs ++ n :: ys) :: (us ++ nn :: vs) :: Q ->
    step (Board R T) (OInsertNext (Some n) (Some nn)) (Board ((xs ++ n :: nn :: ys) :: us :: vs :: Q) T) [last us; head vs]
| st_insert_next_before R T n nn us ws ys Q : R ≡ₚ (us ++ nn :: ws ++ n :: ys) :: Q ->
    step (Board R T) (OInsertNext (Some n) (Some nn)) (Board (us :: (ws ++ n :: nn :: ys) :: Q) T) [last us; head (ws ++ [n])]
| st_insert_next_after R T n nn xs ws vs Q : ws <> [] -> R ≡ₚ (xs ++ n :: ws ++ nn :: vs) :: Q ->
    step (Board R T) (OInsertNext (Some n) (Some nn)) (Board ((xs ++ n :: nn :: ws) :: vs :: Q) T) [last ws; head vs]
| st_insert_next_there R T n nn xs vs Q : R ≡ₚ (xs ++ n :: nn :: vs) :: Q ->
    step (Board R T) (OInsertNext (Some n) (Some nn)) (Board R T) [None; None]
| st_insert_next_self R T p : step (Board R T) (OInsertNext p p) (Board R T) [None; None]
| st_insert_next_nil R T n xs ys Q : R ≡ₚ (xs ++ n :: ys) :: Q ->
    step (Board R T) (OInsertNext (Some n) None) (Board ((xs ++ [n]) :: ys :: Q) T) [None; None]
| st_nil_insert_next R T nn us vs Q : R ≡ₚ (us ++ nn :: vs) :: Q ->
    step (Board R T) (OInsertNext None (Some nn)) (Board (us :: [nn] :: vs :: Q) T) [last us; head vs]
(** InsertPrev *)
| st_insert_prev R T n nn xs ys us vs Q : R ≡ₚ (xs ++ n :: ys) :: (us ++ nn :: vs) :: Q ->
    step (Board R T) (OInsertPrev (Some n) (Some nn)) (Board ((xs ++ nn :: n :: ys) :: us :: vs :: Q) T) [last us; head vs]
| st_insert_prev_before R T n nn us ws ys Q : ws <> [] -> R ≡ₚ (us ++ nn :: ws ++ n :: ys) :: Q ->
    step (Board R T) (OInsertPrev (Some n) (Some nn)) (Board (us :: (ws ++ nn :: n :: ys) :: Q) T) [last us; head ws]
| st_insert_prev_after R T n nn xs ws vs Q : R ≡ₚ (xs ++ n :: ws ++ nn :: vs) :: Q ->
    step (Board R T) (OInsertPrev (Some n) (Some nn)) (Board ((xs ++ nn :: n :: ws) :: vs :: Q) T) [last (n :: ws); head vs]
| st_insert_prev_there R T n nn us ys Q : R ≡ₚ (us ++ nn :: n :: ys) :: Q ->
    step (Board R T) (OInsertPrev (Some n) (Some nn)) (Board R T) [None; None]
| st_insert_prev_self R T p : step (Board R T) (OInsertPrev p p) (Board R T) [None; None]
| st_insert_prev_nil R T n xs ys Q : R ≡ₚ (xs ++ n :: ys) :: Q ->
    step (Board R T) (OInsertPrev (Some n) None) (Board (xs :: (n :: ys) :: Q) T) [None; None]
| st_nil_insert_prev R T nn us vs Q : R ≡ₚ (us ++ nn :: vs) :: Q ->
    step (Board R T) (OInsertPrev None (Some nn)) (Board (us :: [nn] :: vs :: Q) T) [last us; head vs]
(** ReplaceNext; a node before the receiver in its row would close a circle *)
| st_replace_next R T n nn xs ys us vs Q : R ≡ₚ (xs ++ n :: ys) :: (us ++ nn :: vs) :: Q ->
    step (Board R T) (OReplaceNext (Some n) (Some nn)) (Board ((xs ++ n :: nn :: vs) :: us :: ys :: Q) T) [last us; head ys]
| st_replace_next_after R T n nn xs ws vs Q : ws <> [] -> R ≡ₚ (xs ++ n :: ws ++ nn :: vs) :: Q ->
    step (Board R T) (OReplaceNext (Some n) (Some nn)) (Board ((xs ++ n :: nn :: vs) :: ws :: Q) T) [last ws; head ws]
| st_replace_next_there R T n nn xs vs Q : R ≡ₚ (xs ++ n :: nn :: vs) :: Q ->
    step (Board R T) (OReplaceNext (Some n) (Some nn)) (Board R T) [None; None]
| st_replace_next_self R T p : step (Board R T) (OReplaceNext p p) (Board R T) [None; None]
| st_replace_next_nil R T n xs ys Q : R ≡ₚ (xs ++ n :: ys) :: Q ->
    step (Board R T) (OReplaceNext (Some n) None) (Board ((xs ++ [n]) :: ys :: Q) T) [None; head ys]
| st_nil_replace_next R T nn us vs Q : R ≡ₚ (us ++ nn :: vs) :: Q ->
    step (Board R T) (OReplaceNext None (Some nn)) (Board (us :: (nn :: vs) :: Q) T) [last us; None]
(** ReplacePrev; a node after the receiver in its row would close a circle *)
| st_replace_prev R T n nn xs ys us vs Q : R ≡ₚ (xs ++ n :: ys) :: (us ++ nn :: vs) :: Q ->
    step (Board R T) (OReplacePrev (Some n) (Some nn)) (Board ((us ++ nn :: n :: ys) :: xs :: vs :: Q) T) [last xs; head vs]
| st_replace_prev_before R T n nn us ws ys Q : ws <> [] -> R ≡ₚ (us ++ nn :: ws ++ n :: ys) :: Q ->
    step (Board R T) (OReplacePrev (Some n) (Some nn)) (Board ((us ++ nn :: n :: ys) :: ws :: Q) T) [last ws; head ws]
| st_replace_prev_there R T n nn us ys Q : R ≡ₚ (us ++ nn :: n :: ys) :: Q ->
    step (Board R T) (OReplacePrev (Some n) (Some nn)) (Board R T) [None; None]
| st_replace_prev_self R T p : step (Board R T) (OReplacePrev p p) (Board R T) [None; None]
| st_replace_prev_nil R T n xs ys Q : R ≡ₚ (xs ++ n :: ys) :: Q ->
    step (Board R T) (OReplacePrev (Some n) None) (Board (xs :: (n :: ys) :: Q) T) [last xs; None]
| st_nil_replace_prev R T nn us vs Q : R ≡ₚ (us ++ nn :: vs) :: Q ->
    step (Board R T) (OReplacePrev None (Some nn)) (Board ((us ++ [nn]) :: vs :: Q) T) [None; head vs]
(** Take, Remove, Isolate *)
| st_take_next R T n m xs ys Q : R ≡ₚ (xs ++ n :: m :: ys) :: Q ->
    step (Board R T) (OTakeNext (Some n)) (Board ((xs ++ n :: ys) :: [m] :: Q) T) [Some m]
| st_take_next_end R T n xs Q : R ≡ₚ (xs ++ [n]) :: Q -> step (Board R T) (OTakeNext (Some n)) (Board R T) [None]
| st_take_next_nil R T : step (Board R T) (OTakeNext None) (Board R T) [None]
| st_take_prev R T n m xs ys Q : R ≡ₚ (xs ++ m :: n :: ys) :: Q ->
    step (Board R T) (OTakePrev (Some n)) (Board ((xs ++ n :: ys) :: [m] :: Q) T) [Some m]
| st_take_prev_end R T n ys Q : R ≡ₚ (n :: ys) :: Q -> step (Board R T) (OTakePrev (Some n)) (Board R T) [None]
| st_take_prev_nil R T : step (Board R T) (OTakePrev None) (Board R T) [None]
| st_remove_next R T n xs ys Q : R ≡ₚ (xs ++ n :: ys) :: Q ->
    step (Board R T) (ORemoveNext (Some n)) (Board ((xs ++ [n]) :: ys :: Q) T) [head ys]
| st_remove_next_nil R T : step (Board R T) (ORemoveNext None) (Board R T) [None]
| st_remove_prev R T n xs ys Q : R ≡ₚ (xs ++ n :: ys) :: Q ->
    step (Board R T) (ORemovePrev (Some n)) (Board (xs :: (n :: ys) :: Q) T) [last xs]
| st_remove_prev_nil R T : step (Board R T) (ORemovePrev None) (Board R T) [None]
| st_isolate R T n R' : cut_out R n R' -> step (Board R T) (OIsolate (Some n)) (Board R' T) []
| st_isolate_nil R T : step (Board R T) (OIsolate None) (Board R T) []
(** Combine: [l] are the arguments that are neither nil nor the receiver *)
| st_combine_next R T n k nns l R' : absorbed (Some n) nns = map Some l -> cuts R l R' ->
    step (Board R T) (OCombineNext (Some n) k nns)
      (Board R' (alter (fun c => with_kind_card k (with_text_card (card_text T n ++ concat (map (card_text T) l)) c)) n T)) [Some n]
| st_combine_prev R T n k nns l R' : absorbed (Some n) nns = map Some l -> cuts R l R' ->
    step (Board R T) (OCombinePrev (Some n) k nns)
      (Board R' (alter (fun c => with_kind_card k (with_text_card (concat (rev (map (card_text T) l)) ++ card_text T n) c)) n T)) [Some n]
(** a nil receiver: the first argument takes its place, and keeps its kind *)
| st_nil_combine_next R T k a nns l R' : absorbed (Some a) nns = map Some l -> cuts R l R' ->
    step (Board R T) (OCombineNext None k (Some a :: nns))
      (Board R' (alter (with_text_card (card_text T a ++ concat (map (card_text T) l))) a T)) [Some a]
| st_nil_combine_prev R T k a nns l R' : absorbed (Some a) nns = map Some l -> cuts R l R' ->
    step (Board R T) (OCombinePrev None k (Some a :: nns))
      (Board R' (alter (with_text_card (concat (rev (map (card_text T) l)) ++ card_text T a)) a T)) [Some a]
| st_nil_combine_next_none R T k : step (Board R T) (OCombineNext None k []) (Board R T) [None]
| st_nil_combine_prev_none R T k : step (Board R T) (OCombinePrev None k []) (Board R T) [None].

(** [game b ops b']: the calls [ops] lead from [b] to [b']. *)
Inductive game : board -> list op -> board -> Prop :=
| game_nil b : game b [] b
| game_cons b o b1 rs ops b2 : step b o b1 rs -> game b1 ops b2 -> game b (o :: ops) b2.

(** The one kind of call that has no place on a board: Replace closing a circle
    (C08). *)
Definition closes (h : heap) (o : op) : Prop :=
  match o with
  | OReplaceNext (Some n) (Some nn) => tc (nxt h) nn n
  | OReplacePrev (Some n) (Some nn) => tc (nxt h) n nn
  | _ => False
  end.
(** Calls none of which panics or closes a circle. *)
Inductive open_hist : heap -> list op -> heap -> Prop :=
| oh_nil h : open_hist h [] h
| oh_cons h o h1 rs ops h2 : legal h o -> ~ closes h o -> exec h o = Ok (h1, rs) -> open_hist h1 ops h2 -> open_hist h (o :: ops) h2.
(** The calls whose new nodes a board does not name in advance. *)
Definition copies (o : op) : Prop := exists n, o = OCopy (Some n) true.
