(** Specification vocabulary for renaming a declaration. *)
From Verif Require Export SpecLocal SpecEdit SpecText.
From Verif Require Import P_Lex.

(** The text of a scope as it would be saved. *)
Definition view_text (v : scope_view) : str := concat (tok_texts (snd v)).
(** Saving what was parsed from [text] would give it back. *)
Definition reproduced (text : str) : Prop :=
  forall ord h vs, any_order ord -> SpecNode.wf h -> parses_to ord h 0 text vs -> concat (map view_text vs) = text.

(** Cutting the tokens of a text before every token that starts a scope: it is on
    another line than the token before it ([prev]) and begins with a scope keyword. *)
Definition starts_tok (prev : Z) (t : Z * str * kind) : Prop :=
  fst (fst t) <> prev /\ exists k, begins k (snd (fst t)).
Inductive parts : Z -> list (Z * str * kind) -> list (Z * str * kind) -> list (list (Z * str * kind)) -> Prop :=
| pt_nil prev : parts prev [] [] []
| pt_inside prev t ts g gs : ~ starts_tok prev t -> parts (fst (fst t)) ts g gs -> parts prev (t :: ts) (t :: g) gs
| pt_start prev t ts g gs : starts_tok prev t -> parts (fst (fst t)) ts g gs -> parts prev (t :: ts) [] ((t :: g) :: gs).
