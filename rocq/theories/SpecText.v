(** Which declarations keep their text when they are refined; in terms of the
    kinds of their tokens. *)
From Verif Require Export SpecScope.

(** Every comment is the last token or comes before a token of a kind in [ok]. *)
Definition comments_before (ok ks : list kind) : Prop :=
  forall xs k ys, ks = xs ++ KComment :: k :: ys -> k ∈ ok.
(** No parentheses, no func, and comments only at the end of a line. *)
Definition simple (ks : list kind) : Prop :=
  KParenL ∉ ks /\ KFunc ∉ ks /\ comments_before [KNewLine] ks.

(** Square brackets match up. *)
Inductive squares : list kind -> Prop :=
| sq_nil : squares []
| sq_other k ks : k <> KSquareL -> k <> KSquareR -> squares ks -> squares (k :: ks)
| sq_pair ks ks' : squares ks -> squares ks' -> squares (KSquareL :: ks ++ KSquareR :: ks').
(** [type Name kw ...] or [type Name[...] kw ...] *)
Definition declares (kw : kind) (ks body : list kind) : Prop :=
  ks = [KType; KSpace; KRaw; KSpace; kw] ++ body \/
  exists ps, squares ps /\ ks = [KType; KSpace; KRaw; KSquareL] ++ ps ++ [KSquareR; KSpace; kw] ++ body.

(** What comes before a token at the beginning of a line of a struct: a newline
    or the first opening brace, then only comments and opening braces. *)
Definition line_begins (xs : list kind) : Prop :=
  exists us b mid, xs = us ++ b :: mid /\ (forall k, k ∈ mid -> k = KComment \/ k = KCurlyL) /\
    (b = KNewLine \/ b = KCurlyL /\ KCurlyL ∉ us).

(** The declarations whose text is kept. *)
Inductive keeps : list kind -> Prop :=
(** neither a function nor a type *)
| kp_other ks : head ks <> Some KFunc -> head ks <> Some KType -> keeps ks
(** a function or method: no comment inside a return type *)
| kp_func ks : comments_before [KNewLine; KSpace; KCurlyL] (KFunc :: ks) -> keeps (KFunc :: ks)
(** a group of types, [type ( ... )] *)
| kp_group xs k ys : KRaw ∉ xs -> k = KNewLine \/ k = KCurlyR -> keeps (KType :: xs ++ k :: ys)
(** any type without parentheses *)
| kp_plain ks : simple (KType :: ks) -> keeps (KType :: ks)
(** a struct, up to the closing brace at the beginning of a line *)
| kp_struct ks body : declares KStruct ks body -> comments_before [KNewLine; KSpace; KCurlyL] ks ->
    (forall xs ys, body = xs ++ KCurlyR :: ys -> line_begins xs -> simple ys) -> keeps ks
(** an interface, up to a closing brace *)
| kp_interface ks body : declares KInterface ks body -> comments_before [KNewLine; KSpace; KCurlyL] ks ->
    (forall xs ys, body = xs ++ KCurlyR :: ys -> simple ys) -> keeps ks
(** a function type, on one line *)
| kp_functype ks body : declares KFunc ks body -> comments_before [KNewLine; KSpace; KCurlyL] ks ->
    (forall xs ys, body = xs ++ KNewLine :: ys -> simple ys) -> keeps ks.
