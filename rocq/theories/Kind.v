(** Packages [charset], [helper] (pure part), [kind] and [scope]. *)
From Verif Require Export GoStr.

(** ** charset/charset.go *)

(** charset.go:3 [type Set[T] map[T]struct{}]; a Go map used as a set, kept as
    the list of its keys; [None] is the nil map. *)
Definition cset (T : Type) := option (list T).

(** charset.go:5-11 [Contain] *)
Definition contain {T} `{EqDecision T} (cs : cset T) (key : T) : bool :=
  match cs with None => false | Some l => bool_decide (key ∈ l) end.

(** charset.go:13-19 [New]: insertion of each element, one after the other. *)
Definition cset_insert {T} `{EqDecision T} (l : list T) (c : T) : list T :=
  if bool_decide (c ∈ l) then l else l ++ [c].
Definition cset_new {T} `{EqDecision T} (chars : list T) : cset T :=
  Some (fold_left cset_insert chars []).

(** charset.go:21-29 [NewSlice] *)
Definition cset_new_slice {T} `{EqDecision T} (chars : list (list T)) : cset T :=
  Some (fold_left (fun set cs => fold_left cset_insert cs set) chars []).

(** charset.go:32-34 *)
Definition SeparatorCharset : cset ascii :=
  cset_new [c_sp; "["%char; "]"%char; "("%char; ")"%char; "{"%char; "}"%char;
            ","%char; ":"%char; ";"%char; c_nl; c_tab; c_cr].

(** charset.go:36-38 *)
Definition NumberCharset : cset ascii :=
  cset_new ["1"%char; "2"%char; "3"%char; "4"%char; "5"%char; "6"%char;
            "7"%char; "8"%char; "9"%char; "0"%char].

(** charset.go:40-66 *)
Definition GolangKeywords : cset str :=
  cset_new [$"break"; $"default"; $"func"; $"interface"; $"select"; $"case";
            $"defer"; $"go"; $"map"; $"struct"; $"chan"; $"else"; $"goto";
            $"package"; $"switch"; $"const"; $"fallthrough"; $"if"; $"range";
            $"type"; $"continue"; $"for"; $"import"; $"return"; $"var"].

(** charset.go:68-118; a set of single bytes. *)
Definition GolangSymbol : cset ascii :=
  cset_new_slice
    [$"+"; $"&"; $"+="; $"&="; $"&&"; $"=="; $"!="; $"("; $")"; $"-"; $"|";
     $"-="; $"|="; $"||"; $"<"; $"<="; $"["; $"]"; $"*"; $"^"; $"*="; $"^=";
     $"<-"; $">"; $">="; $"{"; $"}"; $"/"; $"<<"; $"/="; $"<<="; $"++"; $"=";
     $":="; $","; $";"; $"%"; $">>"; $"%="; $">>="; $"--"; $"!"; $"..."; $".";
     $":"; $"&^"; $"&^="; $"~"; $"_"].

(** charset.go:120-140 *)
Definition GolangBasicType : cset str :=
  cset_new [$"bool"; $"string"; $"byte"; $"rune"; $"int"; $"uint"; $"int8";
            $"uint8"; $"int16"; $"uint16"; $"int32"; $"uint32"; $"int64";
            $"uint64"; $"uintptr"; $"float32"; $"float64"; $"complex64";
            $"complex128"].

(** ** helper/helper.go (pure functions) *)

(** helper.go:107-119 [HasPrefix]: [for i := range prefix] ranges over the rune
    starts of the string [prefix]; bytes are compared only there.  The length
    test before the loop makes every index valid; [None] in a lookup is an
    index out of range. *)
Definition has_prefix (s prefix : str) : bool :=
  if Nat.ltb (length s) (length prefix) then false
  else forallb (fun i => bool_decide (s !! i = prefix !! i)) (range_pos prefix).

(** helper.go:121-133 [HasSuffix]: [ss] is a []byte, so the range visits every
    index. *)
Definition has_suffix (s suffix : str) : bool :=
  if Nat.ltb (length s) (length suffix) then false
  else let ss := drop (length s - length suffix) s in
       forallb (fun i => bool_decide (ss !! i = suffix !! i)) (seq 0 (length ss)).

(** "·" is U+00B7, two bytes in UTF-8 *)
Definition middot : str := [chr 194; chr 183].

(** helper.go:135-141 [TidyText] *)
Definition tidy_text (s : str) : str :=
  let s := replace_all c_nl [c_bs; "n"%char] s in
  let s := replace_all c_cr middot s in
  let s := replace_all c_sp middot s in
  let s := replace_all c_tab ($" -> ") s in
  s.

(** helper.go:143-157 [AppendUnrepeatable] (contents of the resulting slice) *)
Definition append_unrepeatable {T} `{EqDecision T} (slice elems : list T) : list T :=
  match elems with
  | [] => slice
  | e :: rest =>
    match last slice with
    | None => elems
    | Some x => if bool_decide (x = e) then slice ++ rest else slice ++ elems
    end
  end.

(** ** kind/kind.go *)

(** kind.go:8 [type Kind [2]string] *)
Record kind := mkKind { k_text : str; k_name : str }.
#[global] Instance kind_eq_dec : EqDecision kind.
Proof. solve_decision. Defined.
Definition kind_eqb (a b : kind) : bool := bool_decide (a = b).

(** kind.go:10-60 *)
Definition KNone : kind := mkKind [] [].
Definition KRaw := mkKind [] $"Raw".
Definition KComment := mkKind [] $"Comment".
Definition KNumber := mkKind [] $"Number".
Definition KSymbol := mkKind [] $"Symbol".
Definition KBasic := mkKind [] $"BasicType".
Definition KSeparator := mkKind [] $"Separator".
Definition KKeyword := mkKind [] $"Keyword".

Definition KTab := mkKind [c_tab] $"Tab".
Definition KSpace := mkKind [c_sp] $"Space".
Definition KComma := mkKind $"," $"Comma".
Definition KColon := mkKind $":" $"Colon".
Definition KNewLine := mkKind [c_nl] $"NewLine".
Definition KSemicolon := mkKind $";" $"Semicolon".
Definition KParenL := mkKind $"(" $"ParenthesisLeft".
Definition KParenR := mkKind $")" $"ParenthesisRight".
Definition KCurlyL := mkKind $"{" $"CurlyBracketLeft".
Definition KCurlyR := mkKind $"}" $"CurlyBracketRight".
Definition KSquareL := mkKind $"[" $"SquareBracketLeft".
Definition KSquareR := mkKind $"]" $"SquareBracketRight".

Definition KPointer := mkKind $"*" $"Pointer".
Definition KAddress := mkKind $"&" $"Address".

Definition KImport := mkKind $"import" $"Import".
Definition KVar := mkKind $"var" $"Var".
Definition KConst := mkKind $"const" $"Const".
Definition KMap := mkKind $"map" $"Map".
Definition KChannel := mkKind $"chan" $"Channel".
Definition KFunc := mkKind $"func" $"Func".
Definition KType := mkKind $"type" $"Type".
Definition KStruct := mkKind $"struct" $"Struct".
Definition KInterface := mkKind $"interface" $"Interface".
Definition KPackage := mkKind $"package" $"Package".

Definition KFuncName := mkKind [] $"FuncName".
Definition KTypeName := mkKind [] $"TypeName".
Definition KTypeAliasType := mkKind [] $"TypeAliasType".
Definition KParamName := mkKind [] $"ParamName".
Definition KParamType := mkKind [] $"ParamType".
Definition KMethodReceiverName := mkKind [] $"MethodReceiverName".
Definition KMethodReceiverType := mkKind [] $"MethodReceiverType".
Definition KString := mkKind [] $"String".
Definition KMethod := mkKind [] $"Method".

(** kind.go:62-72 [PointerString], [String] *)
Definition kind_pointer_string (k : option kind) : str :=
  match k with None => [] | Some k => k_name k end.
Definition kind_string (k : kind) : str := k_name k.

(** kind.go:74-91 [GetClose] *)
Definition get_close (k : kind) : kind * bool :=
  if kind_eqb k KParenL then (KParenR, true)
  else if kind_eqb k KCurlyL then (KCurlyR, true)
  else if kind_eqb k KSquareL then (KSquareR, true)
  else if kind_eqb k KParenR then (KParenL, true)
  else if kind_eqb k KCurlyR then (KCurlyL, true)
  else if kind_eqb k KSquareR then (KSquareL, true)
  else (KNone, false).

(** kind.go:98-143, the [switch s] of [New]: each case tests the fixed text of
    a kind, in this order. *)
Definition new_switch : list kind :=
  [KTab; KSpace; KComma; KColon; KNewLine; KSemicolon; KParenL; KParenR;
   KCurlyL; KCurlyR; KSquareL; KSquareR; KImport; KVar; KConst; KMap; KChannel;
   KFunc; KType; KStruct; KInterface; KPackage].
Fixpoint switch_find (s : str) (ks : list kind) : option kind :=
  match ks with
  | [] => None
  | k :: r => if str_eqb s (k_text k) then Some k else switch_find s r
  end.

(** kind.go:93-188 [New].  The digit loop (145-156) and the symbol loop
    (174-185) range over rune starts and stop at the first failure, so they
    accept iff every visited byte is in the set. *)
Definition kind_new (s : str) : kind :=
  match s with
  | [] => KNone
  | c :: r =>
    match switch_find s new_switch with
    | Some k => k
    | None =>
      if forallb (contain NumberCharset) (range_bytes s) then KNumber
      else if Nat.eqb (length s) 1 && contain SeparatorCharset c then KSeparator
      else if has_prefix s [c_dq] || has_prefix s [c_bq] then KString
      else if contain GolangKeywords s then KKeyword
      else if contain GolangBasicType s then KBasic
      else if forallb (contain GolangSymbol) (range_bytes s) then KSymbol
      else KRaw
    end
  end.

(** ** scope/scope_kind.go *)

(** scope_kind.go:6-18 [type Kind string] and its constants *)
Notation scope_kind := (list ascii) (only parsing).
Definition SUnknown : scope_kind := [].
Definition SPackage : scope_kind := $"package".
Definition SComment : scope_kind := $"//".
Definition SInnerComment : scope_kind := $"/*".
Definition SImport : scope_kind := $"import".
Definition SVariable : scope_kind := $"var".
Definition SConst : scope_kind := $"const".
Definition SType : scope_kind := $"type".
Definition SFunc : scope_kind := $"func".

(** scope_kind.go:20-43 [String] *)
Definition scope_kind_string (k : scope_kind) : str :=
  if str_eqb k SUnknown then $"Unknown"
  else if str_eqb k SPackage then $"Package"
  else if str_eqb k SComment then $"Comment"
  else if str_eqb k SInnerComment then $"InnerComment"
  else if str_eqb k SImport then $"Import"
  else if str_eqb k SVariable then $"Variable"
  else if str_eqb k SConst then $"Const"
  else if str_eqb k SType then $"Type"
  else if str_eqb k SFunc then $"Func"
  else [].

(** scope_kind.go:45-68 [ToKind] *)
Definition to_kind (k : scope_kind) : kind :=
  if str_eqb k SUnknown then KRaw
  else if str_eqb k SPackage then KPackage
  else if str_eqb k SComment then KComment
  else if str_eqb k SInnerComment then KComment
  else if str_eqb k SImport then KImport
  else if str_eqb k SVariable then KVar
  else if str_eqb k SConst then KConst
  else if str_eqb k SType then KType
  else if str_eqb k SFunc then KFunc
  else KNone.

(** scope.go:177-184 [isScopeKind] *)
Definition is_scope_kind (s : str) (k : scope_kind) : bool :=
  if Nat.ltb (length s) (length k) then false
  else str_eqb (take (length k) s) k.

(** scope.go:156-175 [newScopeKind]; [scope_kinds] is the literal list. *)
Definition scope_kinds : list scope_kind :=
  [SPackage; SComment; SInnerComment; SImport; SVariable; SConst; SType; SFunc].
Fixpoint find_scope_kind (s : str) (ks : list scope_kind) : scope_kind :=
  match ks with
  | [] => SUnknown
  | k :: r => if is_scope_kind s k then k else find_scope_kind s r
  end.
Definition new_scope_kind (s : str) : scope_kind := find_scope_kind s scope_kinds.
