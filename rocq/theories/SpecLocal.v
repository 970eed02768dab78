(** Specification vocabulary for the independence of scopes: what a caller sees of
    the result of ParseScope, and which texts can be parsed separately. *)
From Verif Require Export SpecScope Scope.

(** What is visible of a scope: line, kind, and line, text and kind of its nodes. *)
Notation scope_view := (Z * str * list (Z * str * kind))%type.
Definition viewed (h : heap) (sc : scope) (v : scope_view) : Prop :=
  exists cur, chain h cur /\ head cur = sc_node sc /\
    v = (scope_line (Some sc), scope_kind_of (Some sc), map (pay h) cur).
Definition parses_to (ord : nat -> list (str * ext)) (h : heap) (startLine : Z) (text : str) (vs : list scope_view) : Prop :=
  exists h' scs, parse_scope ord h startLine text = Ok (h', scs) /\ Forall2 (viewed h') scs vs.

(** The same, [d] lines further down. *)
Definition down_tok (d : Z) (t : Z * str * kind) : Z * str * kind := ((fst (fst t) + d)%Z, snd (fst t), snd t).
Definition down (d : Z) (v : scope_view) : scope_view := ((fst (fst v) + d)%Z, snd (fst v), map (down_tok d) (snd v)).

(** The brackets ( and { that are still open after some tokens, innermost first,
    each given by what closes it. *)
Fixpoint open_brackets (st : list ascii) (ts : list str) : list ascii :=
  match ts with
  | [] => st
  | t :: r =>
    open_brackets (if bool_decide (t = $"(") then ")"%char :: st
                   else if bool_decide (t = $"{") then "}"%char :: st
                   else match st with
                        | c :: st' => if bool_decide (t = [c]) then st' else st
                        | [] => []
                        end) r
  end.
Definition tok_texts (ts : list (Z * str * kind)) : list str := map (fun t => snd (fst t)) ts.

(** [text] can be followed by anything: it ends with a newline (outside strings
    and comments), and with no bracket open. *)
Definition complete (text : str) : Prop :=
  exists ts t, tokens text ts /\ last ts = Some t /\ snd (fst t) = [c_nl] /\ open_brackets [] (tok_texts ts) = [].
(** [text] begins with a scope; the first ( or {, if any, comes after a word. *)
Definition begins_scope (text : str) : Prop :=
  exists ts t ts', tokens text ts /\ ts = t :: ts' /\ (exists k, begins k (snd (fst t))) /\
    forall xs c ys, tok_texts ts = xs ++ c :: ys -> c = $"(" \/ c = $"{" -> exists w, w ∈ xs /\ is_word w.

Definition text_kind (t : Z * str * kind) : str * kind := (snd (fst t), snd t).

(** The views of several texts put one below the other, the first [d] lines down. *)
Fixpoint stacked (d : Z) (files : list str) (vss : list (list scope_view)) : list scope_view :=
  match files, vss with
  | f :: files, vs :: vss => map (down d) vs ++ stacked (d + count_nl f) files vss
  | _, _ => []
  end.
