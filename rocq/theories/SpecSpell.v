(** Specification vocabulary: lists of tokens that can be written down. *)
From Verif Require Export SpecOpaque.

(** A word: no separators, no quotes, no beginning of a comment. *)
Definition go_word (w : str) : Prop :=
  w <> [] /\ (forall c, c ∈ w -> c ∉ separators /\ c <> c_dq /\ c <> c_bq) /\ absent $"//" w /\ absent $"/*" w.
(** What may follow a word: nothing, a separator, a string or a comment; not the
    latter if the word ends with a slash. *)
Definition after_word (w : str) (ts : list (str * kind)) : Prop :=
  match ts with
  | [] => True
  | (t, _) :: _ => (exists c, c ∈ separators /\ t = [c]) \/ (exists d, opener d `prefix_of` t /\ (last w = Some "/"%char -> head t <> Some "/"%char))
  end.
(** Tokens with kinds that can be written one after another as they are. *)
Inductive spelled : list (str * kind) -> Prop :=
| sp_nil : spelled []
| sp_sep c ts : c ∈ separators -> spelled ts -> spelled (([c], kind_new [c]) :: ts)
| sp_word w ts : go_word w -> after_word w ts -> spelled ts -> spelled ((w, kind_new w) :: ts)
| sp_delim d t ts : d <> DLine -> whole d t -> spelled ts -> spelled ((t, dkind d) :: ts)
| sp_line b k ts : c_nl ∉ b -> spelled (([c_nl], k) :: ts) -> spelled (($"//" ++ b, KComment) :: ([c_nl], k) :: ts).
(** How they are written. *)
Definition spelling (ts : list (str * kind)) : str := concat (map fst ts).
(** The last of them is not a string or comment that has no end. *)
Definition ends_closed (ts : list (str * kind)) : Prop := forall t, last ts = Some t -> ~ exists d, cut_off d (fst t).
