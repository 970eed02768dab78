(** Specification of the tokeniser: which pieces a text is cut into.  Nothing
    here mentions extractors, buffers, indices or nodes. *)
From Verif Require Export SpecPure.

Definition separators : list ascii :=
  [c_sp; "["%char; "]"%char; "("%char; ")"%char; "{"%char; "}"%char; ","%char; ":"%char; ";"%char; c_nl; c_tab; c_cr].

(** Delimited tokens: "...", `...`, /*...*/ and //... *)
Inductive delim := DString | DRaw | DBlock | DLine.
Definition opener (d : delim) : str :=
  match d with DString => [c_dq] | DRaw => [c_bq] | DBlock => $"/*" | DLine => $"//" end.
(** A delimited token that is complete. *)
Definition closed (d : delim) (t : str) : Prop :=
  match d with
  | DString => exists b, t = [c_dq] ++ b ++ [c_dq] /\ last b <> Some c_bs
  | DRaw => exists b, t = [c_bq] ++ b ++ [c_bq]
  | DBlock => exists b, t = $"/*" ++ b ++ $"/" /\ last ("*"%char :: b) = Some "*"%char
  | DLine => exists b, t = $"//" ++ b ++ [c_nl]
  end.
Definition dkind (d : delim) : kind :=
  match d with DString | DRaw => KString | DBlock | DLine => KComment end.

Definition opens (s : str) : Prop := exists d, opener d `prefix_of` s.
(** [t] is the shortest prefix of [s] with property [P]. *)
Definition shortest (P : str -> Prop) (s t : str) : Prop :=
  t `prefix_of` s /\ P t /\ forall u, u `prefix_of` s -> P u -> length t <= length u.
(** A delimited token that is cut off by the end of the text. *)
Definition cut_off (d : delim) (s : str) : Prop :=
  opener d `prefix_of` s /\ forall t, t `prefix_of` s -> ~ closed d t.

(** [token s t k r]: the first token of [s] is [t], of kind [k], and [r] is what
    follows it. *)
Inductive token : str -> str -> kind -> str -> Prop :=
| tk_separator c r : c ∈ separators -> token (c :: r) [c] (kind_new [c]) r
| tk_word w r : w <> [] ->
    (forall w1 c w2, w = w1 ++ c :: w2 -> c ∉ separators /\ ~ opens (c :: w2 ++ r)) ->
    (r = [] \/ opens r \/ exists c, head r = Some c /\ c ∈ separators) ->
    token (w ++ r) w (kind_new w) r
| tk_delim d t r : d <> DLine -> shortest (closed d) (t ++ r) t -> token (t ++ r) t (dkind d) r
| tk_line t r : shortest (closed DLine) (t ++ c_nl :: r) (t ++ [c_nl]) ->
    token (t ++ c_nl :: r) t KComment (c_nl :: r)
| tk_cut_off d t : cut_off d t -> token t t (kind_new t) [].

(** The line reported for a token [t] that starts on line [n].  Every token is
    reported on the line it starts on, except that a token cut off by the end of
    the text is reported on its last line, and that ( and { are reported on the
    line [b], explained below. *)
Definition line_rule (n b : Z) (t : str) (m : Z) : Prop :=
  ((exists d, cut_off d t) -> m = (n + count_nl t)%Z) /\
  (t = $"(" \/ t = $"{" -> m = b) /\
  (~ (exists d, cut_off d t) -> t <> $"(" -> t <> $"{" -> m = n).

(** [b] is the line of the last word at the current bracket depth, or of the
    innermost open bracket if there is no word since.  [st] lists, innermost
    first, the brackets that are open: what closes each, and the [b] outside. *)
Definition brackets : Type := list (ascii * Z).
Definition is_word (t : str) : Prop := ~ opens t /\ forall c, t = [c] -> c ∉ separators.
Inductive bracket_step (n b : Z) (st : brackets) : str -> Z -> brackets -> Prop :=
| bs_paren : bracket_step n b st $"(" n ((")"%char, b) :: st)
| bs_curly : bracket_step n b st $"{" n (("}"%char, b) :: st)
| bs_close c b' st' : st = (c, b') :: st' -> bracket_step n b st [c] b' st'
| bs_word t : is_word t -> bracket_step n b st t n st
| bs_other t : ~ is_word t -> t <> $"(" -> t <> $"{" -> (forall c b' st', st = (c, b') :: st' -> t <> [c]) ->
    bracket_step n b st t b st.

(** [scan n b st s ts]: a text [s] that starts on line [n] with open brackets
    [b], [st] consists of the tokens [ts] (line, text, kind). *)
Inductive scan : Z -> Z -> brackets -> str -> list (Z * str * kind) -> Prop :=
| sc_nil n b st : scan n b st [] []
| sc_cons n b st s t k r m b' st' ts : token s t k r -> line_rule n b t m -> bracket_step n b st t b' st' ->
    scan (n + count_nl t) b' st' r ts -> scan n b st s ((m, t, k) :: ts).
(** The tokens of a whole text. *)
Definition tokens (s : str) (ts : list (Z * str * kind)) : Prop := scan 0 0 [] s ts.

(** Text of a token list. *)
Definition texts (ts : list (Z * str * kind)) : str := concat (map (fun t => snd (fst t)) ts).

(** The body of a Go interpreted string literal: escape pairs and other bytes. *)
Inductive go_body : str -> Prop :=
| gb_nil : go_body []
| gb_plain c b : c <> c_dq -> c <> c_bs -> go_body b -> go_body (c :: b)
| gb_escape c b : go_body b -> go_body (c_bs :: c :: b).
(** [p] does not occur in [b]. *)
Definition absent (p b : str) : Prop := forall b1 b2, b <> b1 ++ p ++ b2.
