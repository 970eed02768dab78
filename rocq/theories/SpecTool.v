(** What the example program should leave of a file. *)
From Verif Require Export SpecEdit.

(** A scope that is no comment. *)
Definition no_comment (sc : scope) : Prop := sc_kind sc <> SComment /\ sc_kind sc <> SInnerComment.
Global Instance no_comment_dec sc : Decision (no_comment sc). Proof. unfold no_comment. apply _. Defined.
(** The scopes of a file that stay, with their nodes. *)
Definition kept (scs : list scope) (lss : list (list loc)) : list (scope * list loc) :=
  filter (fun p => no_comment (fst p)) (zip scs lss).
(** The nodes of a scope that stay: those that are no comments, and the last. *)
Definition uncommented (h : heap) (ls : list loc) : list loc :=
  filter (fun l => kind_of h (Some l) <> KComment \/ last ls = Some l) ls.
