(** Specification vocabulary for the pure packages, independent of the code. *)
From Verif Require Export Kind.

Definition ascii_byte (c : ascii) : Prop := (N_of_ascii c < 128)%N.

Definition digits : list ascii := $"0123456789".
Definition operators : list ascii := $"+&=!()-|<[]*^>{}/:,;%.~_".
(** Texts with a kind of their own. *)
Definition reserved : list (str * kind) :=
  [([c_tab], KTab); ([c_sp], KSpace); ($",", KComma); ($":", KColon); ([c_nl], KNewLine); ($";", KSemicolon);
   ($"(", KParenL); ($")", KParenR); ($"{", KCurlyL); ($"}", KCurlyR); ($"[", KSquareL); ($"]", KSquareR);
   ($"import", KImport); ($"var", KVar); ($"const", KConst); ($"map", KMap); ($"chan", KChannel);
   ($"func", KFunc); ($"type", KType); ($"struct", KStruct); ($"interface", KInterface); ($"package", KPackage)].
(** The keywords of the Go specification that are not reserved above. *)
Definition other_keywords : list str :=
  [$"break"; $"default"; $"select"; $"case"; $"defer"; $"go"; $"else"; $"goto"; $"switch"; $"fallthrough";
   $"if"; $"range"; $"continue"; $"for"; $"return"].
Definition basic_types : list str :=
  [$"bool"; $"string"; $"byte"; $"rune"; $"int"; $"uint"; $"int8"; $"uint8"; $"int16"; $"uint16"; $"int32";
   $"uint32"; $"int64"; $"uint64"; $"uintptr"; $"float32"; $"float64"; $"complex64"; $"complex128"].

Definition is_reserved (s : str) : Prop := exists k, (s, k) ∈ reserved.
Definition is_number (s : str) : Prop := s <> [] /\ forall c, c ∈ s -> c ∈ digits.
Definition is_quoted (s : str) : Prop := head s = Some c_dq \/ head s = Some c_bq.
Definition is_operator (s : str) : Prop := s <> [] /\ forall c, c ∈ s -> c ∈ operators.

(** The classification kind.New is meant to compute. *)
Inductive class (s : str) : kind -> Prop :=
| cl_none : s = [] -> class s KNone
| cl_reserved k : (s, k) ∈ reserved -> class s k
| cl_number : is_number s -> class s KNumber
| cl_separator : s = [c_cr] -> class s KSeparator
| cl_string : is_quoted s -> class s KString
| cl_keyword : s ∈ other_keywords -> class s KKeyword
| cl_basic : s ∈ basic_types -> class s KBasic
| cl_symbol : is_operator s -> ~ is_reserved s -> class s KSymbol
| cl_raw : s <> [] -> ~ is_reserved s -> ~ is_number s -> s <> [c_cr] -> ~ is_quoted s ->
    s ∉ other_keywords -> s ∉ basic_types -> ~ is_operator s -> class s KRaw.

(** All predeclared kinds that have a fixed text (kind.go). *)
Definition fixed_kinds : list kind :=
  [KTab; KSpace; KComma; KColon; KNewLine; KSemicolon; KParenL; KParenR; KCurlyL; KCurlyR; KSquareL; KSquareR;
   KPointer; KAddress; KImport; KVar; KConst; KMap; KChannel; KFunc; KType; KStruct; KInterface; KPackage].

(** The texts that start a scope. *)
Definition scope_keywords : list str :=
  [$"package"; $"//"; $"/*"; $"import"; $"var"; $"const"; $"type"; $"func"].
(** The name and the node kind of each scope kind. *)
Definition scope_kind_names : list (str * (str * kind)) :=
  [([], ($"Unknown", KRaw)); ($"package", ($"Package", KPackage)); ($"//", ($"Comment", KComment)); ($"/*", ($"InnerComment", KComment));
   ($"import", ($"Import", KImport)); ($"var", ($"Variable", KVar)); ($"const", ($"Const", KConst)); ($"type", ($"Type", KType));
   ($"func", ($"Func", KFunc))].

(** What TidyText shows for one byte. *)
Definition tidy_byte (c : ascii) : str :=
  if bool_decide (c = c_nl) then $"\n"
  else if bool_decide (c = c_cr) then middot
  else if bool_decide (c = c_sp) then middot
  else if bool_decide (c = c_tab) then $" -> "
  else [c].

(** No two equal neighbours. *)
Fixpoint no_repeat {T} (l : list T) : Prop :=
  match l with
  | a :: ((b :: _) as r) => a <> b /\ no_repeat r
  | _ => True
  end.

(** Adding a text with key [k] overwrites what a trie holds for key [s]: the
    value of [s] itself, or, for a longer [k], the marks on the way to it (the
    root is not on the way). *)
Definition overwrites (k s : list ascii) : Prop :=
  match s with [] => k = [] | _ => s `prefix_of` k end.
