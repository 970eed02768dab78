(** Specification vocabulary for editing a file: what calls on the nodes of an
    ast do to the text that Save writes. *)
From Verif Require Export SpecAst SpecHist.

(** A scope of a file: the nodes before its node (they are not saved), and those
    from its node on (they are). *)
Notation sheet := (list loc * list loc)%type (only parsing).
Definition on_sheet (h : heap) (o : option scope) (s : sheet) : Prop :=
  exists sc, o = Some sc /\ sc_node sc = head (snd s) /\ snd s <> [] /\ chain h (fst s ++ snd s).
Definition nodes_of (ds : list sheet) : list loc := concat (map (fun s => fst s ++ snd s) ds).
(** The scopes [scs] are on chains of their own. *)
Definition document (h : heap) (scs : list (option scope)) (ds : list sheet) : Prop :=
  SpecNode.wf h /\ Forall2 (on_sheet h) scs ds /\ NoDup (nodes_of ds).
(** Its text. *)
Definition written (h : heap) (ds : list sheet) : str := concat (map (fun s => text_at h (snd s)) ds).

(** [edit h out o s s' t]: the call [o] turns the scope [s] into [s'], with text
    [t]; nodes that are put into the scope are taken from those in [out].
    [xs], [ys] are the nodes around the receiver [n]; an inserted node [nn] is
    taken out of a chain [us ++ nn :: vs], of which only it is used by Insert, and
    the part from it on by ReplaceNext. *)
Inductive edit (h : heap) (out : loc -> Prop) : op -> sheet -> sheet -> str -> Prop :=
| ed_set_text b xs n ys t :
    edit h out (OSetText (Some n) t) (b, xs ++ n :: ys) (b, xs ++ n :: ys) (text_at h xs ++ t ++ text_at h ys)
| ed_set_kind b xs n ys k :
    edit h out (OSetKind (Some n) k) (b, xs ++ n :: ys) (b, xs ++ n :: ys) (text_at h (xs ++ n :: ys))
| ed_insert_next b xs n ys us nn vs : chain h (us ++ nn :: vs) -> (forall x, x ∈ us ++ nn :: vs -> out x) ->
    edit h out (OInsertNext (Some n) (Some nn)) (b, xs ++ n :: ys) (b, xs ++ n :: nn :: ys)
      (text_at h xs ++ text_of h (Some n) ++ text_of h (Some nn) ++ text_at h ys)
| ed_insert_prev b xs n ys us nn vs : chain h (us ++ nn :: vs) -> (forall x, x ∈ us ++ nn :: vs -> out x) -> xs <> [] ->
    edit h out (OInsertPrev (Some n) (Some nn)) (b, xs ++ n :: ys) (b, xs ++ nn :: n :: ys)
      (text_at h xs ++ text_of h (Some nn) ++ text_of h (Some n) ++ text_at h ys)
(** before the scope's node: not saved *)
| ed_insert_prev_root b n ys us nn vs : chain h (us ++ nn :: vs) -> (forall x, x ∈ us ++ nn :: vs -> out x) ->
    edit h out (OInsertPrev (Some n) (Some nn)) (b, n :: ys) (b ++ [nn], n :: ys) (text_at h (n :: ys))
| ed_replace_next b xs n ys us nn vs : chain h (us ++ nn :: vs) -> (forall x, x ∈ us ++ nn :: vs -> out x) ->
    edit h out (OReplaceNext (Some n) (Some nn)) (b, xs ++ n :: ys) (b, xs ++ n :: nn :: vs)
      (text_at h xs ++ text_of h (Some n) ++ text_of h (Some nn) ++ text_at h vs)
(** the scope keeps what came before *)
| ed_replace_prev b xs n ys us nn vs : chain h (us ++ nn :: vs) -> (forall x, x ∈ us ++ nn :: vs -> out x) -> xs <> [] ->
    edit h out (OReplacePrev (Some n) (Some nn)) (b, xs ++ n :: ys) (b, xs) (text_at h xs)
| ed_take_next b xs n m ys :
    edit h out (OTakeNext (Some n)) (b, xs ++ n :: m :: ys) (b, xs ++ n :: ys) (text_at h xs ++ text_of h (Some n) ++ text_at h ys)
| ed_take_prev b xs m n ys : xs <> [] ->
    edit h out (OTakePrev (Some n)) (b, xs ++ m :: n :: ys) (b, xs ++ n :: ys) (text_at h xs ++ text_of h (Some n) ++ text_at h ys)
(** the scope's node itself is taken out: the scope is left with it alone *)
| ed_take_prev_root b m n ys :
    edit h out (OTakePrev (Some n)) (b, m :: n :: ys) ([], [m]) (text_of h (Some m))
| ed_remove_next b xs n ys :
    edit h out (ORemoveNext (Some n)) (b, xs ++ n :: ys) (b, xs ++ [n]) (text_at h xs ++ text_of h (Some n))
(** the scope keeps what came before *)
| ed_remove_prev b xs n ys : xs <> [] ->
    edit h out (ORemovePrev (Some n)) (b, xs ++ n :: ys) (b, xs) (text_at h xs)
| ed_remove_prev_root b n ys :
    edit h out (ORemovePrev (Some n)) (b, n :: ys) ([], n :: ys) (text_at h (n :: ys))
| ed_isolate b xs n ys : xs <> [] ->
    edit h out (OIsolate (Some n)) (b, xs ++ n :: ys) (b, xs) (text_at h xs)
| ed_isolate_root b n ys :
    edit h out (OIsolate (Some n)) (b, n :: ys) ([], [n]) (text_of h (Some n))
(** what follows the absorbed nodes is cut off *)
| ed_combine_next b xs n ms ys k : ms <> [] ->
    edit h out (OCombineNext (Some n) k (map Some ms)) (b, xs ++ n :: ms ++ ys) (b, xs ++ [n])
      (text_at h xs ++ text_of h (Some n) ++ text_at h ms).
(** Calls that only make new nodes. *)
Definition makes (o : op) : Prop := match o with ONewNode _ _ _ | ONewNodes _ _ | OCopy _ _ => True | _ => False end.
(** A sequence of such calls and of edits, each on some scope of the file as the
    calls before have left it. *)
Inductive session : heap -> list sheet -> list op -> heap -> list sheet -> Prop :=
| se_end h ds : session h ds [] h ds
| se_make h ds o h1 rs ops h2 ds2 : makes o -> legal h o -> exec h o = Ok (h1, rs) -> session h1 ds ops h2 ds2 -> session h ds (o :: ops) h2 ds2
| se_edit h A s B o s' t h1 rs ops h2 ds2 :
    edit h (fun x => x ∉ nodes_of (A ++ s :: B)) o s s' t -> exec h o = Ok (h1, rs) ->
    session h1 (A ++ s' :: B) ops h2 ds2 -> session h (A ++ s :: B) (o :: ops) h2 ds2.
