(** Specification of the division of a file into scopes. *)
From Verif Require Export SpecNode SpecLex.

(** The text begins with the keyword [k]. *)
Definition begins (k : str) (t : str) : Prop := k ∈ scope_keywords /\ k `prefix_of` t.
(** A node starts a scope if it is on another line than the node before it
    ([prev]) and its text begins with a scope keyword. *)
Definition starts (h : heap) (prev : Z) (l : loc) : Prop :=
  line_of h (Some l) <> prev /\ exists k, begins k (text_of h (Some l)).
(** [pieces h prev ls g gs]: cutting [ls] before every node that starts a scope
    gives the pieces [g] (before the first start) and [gs]. *)
Inductive pieces (h : heap) : Z -> list loc -> list loc -> list (list loc) -> Prop :=
| pc_nil prev : pieces h prev [] [] []
| pc_inside prev l ls g gs : ~ starts h prev l -> pieces h (line_of h (Some l)) ls g gs ->
    pieces h prev (l :: ls) (l :: g) gs
| pc_start prev l ls g gs : starts h prev l -> pieces h (line_of h (Some l)) ls g gs ->
    pieces h prev (l :: ls) [] ((l :: g) :: gs).

(** The kinds that refining a scope may give to a node. *)
Definition refined : list kind :=
  [KFuncName; KTypeName; KParamName; KParamType; KMethodReceiverName; KMethodReceiverType].

(** The line of the node before a position, [startLine - 1] at the beginning. *)
Definition line_before (h : heap) (startLine : Z) (xs : list loc) : Z :=
  match last xs with Some x => line_of h (Some x) | None => (startLine - 1)%Z end.

(** The text [s] begins with tokens with the given texts and kinds, followed by [r]. *)
Inductive lexes : str -> list (str * kind) -> str -> Prop :=
| lx_nil s : lexes s [] s
| lx_cons s t k r ts r' : token s t k r -> lexes r ts r' -> lexes s ((t, k) :: ts) r'.

(** A word of characters none of which can end a word. *)
Definition plain_word (w : str) : Prop :=
  w <> [] /\ forall c, c ∈ w -> c ∉ separators /\ c <> c_dq /\ c <> c_bq /\ c <> "/"%char.
(** A word can end before [r]. *)
Definition word_ends (r : str) : Prop := r = [] \/ opens r \/ exists c, head r = Some c /\ c ∈ separators.

(** As many opening as closing brackets of each sort. *)
Definition occurrences (k : kind) (ks : list kind) : nat := length (filter (fun x => x = k) ks).
Definition balanced (ks : list kind) : Prop :=
  occurrences KParenL ks = occurrences KParenR ks /\ occurrences KCurlyL ks = occurrences KCurlyR ks /\
  occurrences KSquareL ks = occurrences KSquareR ks.
(** The first newline or closing brace at which the brackets balance is a brace
    directly followed by an opening parenthesis, as in [func() {...}(...)]. *)
Definition called_at_once (ks : list kind) : Prop :=
  exists xs ys, ks = xs ++ KCurlyR :: KParenL :: ys /\ balanced (xs ++ [KCurlyR]) /\
    forall us x vs, xs = us ++ x :: vs -> x = KNewLine \/ x = KCurlyR -> ~ balanced (us ++ [x]).
