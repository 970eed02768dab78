(** Specification vocabulary for putting a file together from parts of others. *)
From Verif Require Export SpecRename.

(** Texts parsed one after another, in one program. *)
Inductive parse_all (ord : nat -> list (str * ext)) : heap -> list str -> heap -> list (list scope) -> Prop :=
| pa_nil h : parse_all ord h [] h []
| pa_cons h text h1 scs texts h2 scss : parse_scope ord h 0 text = Ok (h1, scs) -> parse_all ord h1 texts h2 scss ->
    parse_all ord h (text :: texts) h2 (scs :: scss).
(** What is visible of a scope apart from lines. *)
Definition shape (v : scope_view) : str * list (str * kind) := (snd (fst v), map text_kind (snd v)).
