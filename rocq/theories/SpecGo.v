(** A grammar of Go files in the layout of gofmt: its sentences, how they are
    written, and what is expected of their nodes after parsing. *)
From Verif Require Export SpecSpell SpecKinds SpecMerge SpecAst.

(** A token as it is read, and as it is once its kind is settled: identifiers get
    the kind [k]; what has a kind already, like [int] or [3], keeps it. *)
Definition lx (w : str) : lexeme := (w, kind_new w).
Definition now (k : kind) (w : str) : lexeme := (w, if bool_decide (kind_new w = KRaw) then k else kind_new w).

(** ** Types and parameters *)
Inductive ty :=
| TWord (w : str)                       (* T, pkg.T, *T, ...T, int *)
| TGeneric (w : str) (args : plist)     (* T[A, B] *)
| TSlice (t : ty)                       (* []t *)
| TArray (n : str) (t : ty)             (* [n]t *)
| TMap (m : str) (k t : ty)             (* map[k]t, *map[k]t *)
| TChan (c : str) (t : ty)              (* chan t, <-chan t, chan<- t *)
| TEmpty (w : str)                      (* interface{}, struct{}, ...interface{} *)
| TPrefix (s : str) (t : ty)            (* *t and ...t, before a square bracket *)
| TFunc (ps : plist)                    (* func(ps) *)
| TFuncR (ps : plist) (r : ty)          (* func(ps) r *)
with plist :=
| PNil
| PCons (name : option str) (t : ty) (rest : plist).

(** How the parts of a type are written. *)
Record pen := mkPen { p_name : str -> lexeme; p_type : str -> lexeme; p_index : str -> lexeme }.
(** In square brackets. *)
Definition inside (p : pen) : pen := mkPen (p_index p) (p_index p) (p_index p).
(** A parameter with a name other than _, or that is a single word. *)
Definition reads_as_type (o : option str) (t : ty) : bool :=
  match o with Some n => bool_decide (n <> $"_") | None => match t with TWord _ => true | _ => false end end.
Fixpoint ty_out (p : pen) (t : ty) : list lexeme :=
  match t with
  | TWord w => [p_type p w]
  | TGeneric w args => p_type p w :: lx $"[" :: ps_out (inside p) args ++ [lx $"]"]
  | TSlice t => lx $"[" :: lx $"]" :: ty_out p t
  | TArray n t => lx $"[" :: p_index p n :: lx $"]" :: ty_out p t
  | TMap m k t => p_type p m :: lx $"[" :: ty_out (inside p) k ++ lx $"]" :: ty_out p t
  | TChan c t => p_type p c :: lx $" " :: ty_out p t
  | TEmpty w => [p_type p w; lx $"{"; lx $"}"]
  | TPrefix s t => p_type p s :: ty_out p t
  | TFunc ps => lx $"func" :: lx $"(" :: ps_out p ps ++ [lx $")"]
  | TFuncR ps r => lx $"func" :: lx $"(" :: ps_out p ps ++ lx $")" :: lx $" " :: ty_out p r
  end
(** The type of other parameters: its first identifier outside brackets is taken
    for a name. *)
with unnamed (p : pen) (t : ty) : list lexeme :=
  match t with
  | TWord w => [p_name p w]
  | TGeneric w args => p_name p w :: lx $"[" :: ps_out (inside p) args ++ [lx $"]"]
  | TSlice t => lx $"[" :: lx $"]" :: unnamed p t
  | TArray n t => lx $"[" :: p_index p n :: lx $"]" :: unnamed p t
  | TMap m k t => p_name p m :: lx $"[" :: ty_out (inside p) k ++ lx $"]" :: if bool_decide (m = $"map") then unnamed p t else ty_out p t
  | TChan c t => p_name p c :: lx $" " :: if bool_decide (c = $"chan") then unnamed p t else ty_out p t
  | TEmpty w => [p_name p w; lx $"{"; lx $"}"]
  | TPrefix s t => p_name p s :: unnamed p t
  | TFunc ps => lx $"func" :: lx $"(" :: ps_out p ps ++ [lx $")"]
  | TFuncR ps r => lx $"func" :: lx $"(" :: ps_out p ps ++ lx $")" :: lx $" " :: unnamed p r
  end
with ps_out (p : pen) (ps : plist) : list lexeme :=
  match ps with
  | PNil => []
  | PCons o t rest =>
    match o with Some n => [p_name p n; lx $" "] | None => [] end ++ (if reads_as_type o t then ty_out p t else unnamed p t) ++
    match rest with PNil => [] | _ => lx $"," :: lx $" " :: ps_out p rest end
  end.
(** In the source all parts are as read.  After parsing, names have the kind
    [n] and types the kind [t]; what stands in square brackets is left alone
    except in structs ([deep]). *)
Definition source : pen := mkPen lx lx lx.
Definition settled (n t : kind) (deep : bool) : pen := mkPen (now n) (now t) (if deep then now t else lx).
Definition param_pen : pen := settled KParamName KParamType false.
Definition field_pen : pen := settled KParamName KParamType true.
Definition receiver_pen : pen := settled KMethodReceiverName KMethodReceiverType false.

(** Which are meant: identifiers are words with no kind of their own. *)
Definition ident (w : str) : Prop := plain_word w /\ kind_new w = KRaw.
Definition param_name (w : str) : Prop := ident w \/ w = $"_".
Definition type_word (w : str) : Prop := plain_word w /\ kind_new w ∈ [KRaw; KBasic].
Definition index_word (w : str) : Prop := plain_word w /\ kind_new w ∈ [KRaw; KBasic; KNumber].
Definition symbol (w : str) : Prop := plain_word w /\ kind_new w = KSymbol.
(** No function type in it; nor braces. *)
Fixpoint no_func (t : ty) : Prop :=
  match t with
  | TWord _ | TEmpty _ => True
  | TGeneric _ args => ps_no_func args
  | TSlice t | TArray _ t | TChan _ t | TPrefix _ t => no_func t
  | TMap _ k t => no_func k /\ no_func t
  | TFunc _ | TFuncR _ _ => False
  end
with ps_no_func (ps : plist) : Prop := match ps with PNil => True | PCons _ t r => no_func t /\ ps_no_func r end.
Fixpoint flat (t : ty) : Prop :=
  match t with
  | TWord _ => True
  | TGeneric _ args => ps_flat args
  | TSlice t | TArray _ t | TChan _ t | TPrefix _ t => flat t
  | TMap _ k t => flat k /\ flat t
  | TEmpty _ | TFunc _ | TFuncR _ _ => False
  end
with ps_flat (ps : plist) : Prop := match ps with PNil => True | PCons _ t r => flat t /\ ps_flat r end.
Fixpoint ty_ok (t : ty) : Prop :=
  match t with
  | TWord w => type_word w
  | TGeneric w args => ident w /\ args <> PNil /\ args_ok args /\ ps_no_func args
  | TSlice t => ty_ok t
  | TArray n t => index_word n /\ ty_ok t
  | TMap m k t => (m = $"map" \/ ident m) /\ ty_ok k /\ no_func k /\ ty_ok t
  | TChan c t => (c = $"chan" \/ ident c) /\ ty_ok t
  | TEmpty w => w ∈ [$"interface"; $"struct"] \/ ident w
  | TPrefix s t => symbol s /\ ty_ok t /\ match t with TSlice _ | TArray _ _ => True | _ => False end
  | TFunc ps => ps_ok ps
  | TFuncR ps r => ps_ok ps /\ ty_ok r
  end
with ps_ok (ps : plist) : Prop :=
  match ps with
  | PNil => True
  | PCons o t rest =>
    match o with Some n => param_name n | None => True end /\ ty_ok t /\ ps_ok rest
  end
with args_ok (ps : plist) : Prop :=
  match ps with
  | PNil => True
  | PCons o t rest => o = None /\ ty_ok t /\ args_ok rest
  end.
(** No function type in it, and braces only at the end. *)
Fixpoint tailed (t : ty) : Prop :=
  match t with
  | TWord _ | TEmpty _ => True
  | TGeneric _ args => ps_flat args
  | TSlice t | TArray _ t | TChan _ t | TPrefix _ t => tailed t
  | TMap _ k t => flat k /\ tailed t
  | TFunc _ | TFuncR _ _ => False
  end.
(** The type of a single result may also be a function type, or a channel of such. *)
Fixpoint res_ty (t : ty) : Prop :=
  match t with
  | TFunc _ => True
  | TFuncR _ r => res_ty r
  | TChan _ t => res_ty t
  | t => tailed t
  end.

(** A type that ends with a function type without results. *)
Fixpoint ends_func (t : ty) : Prop :=
  match t with
  | TFunc _ => True
  | TSlice t | TArray _ t | TMap _ _ t | TChan _ t | TPrefix _ t | TFuncR _ t => ends_func t
  | _ => False
  end.

(** ** Functions *)
Definition in_parens (ts : list lexeme) : list lexeme := lx $"(" :: ts ++ [lx $")"].
(** The results of such a function type, if there are several, or they have names. *)
Definition several (p : pen) (rs : plist) : list lexeme := match rs with PNil => [] | _ => lx $" " :: in_parens (ps_out p rs) end.
Definition comment (c : str) : lexeme := ($"//" ++ c, KComment).
Definition tabs (n : nat) : list lexeme := repeat (lx [c_tab]) n.
(** Parameters in parentheses, in one line or in several, which are indented and may
    end with comments; or with a last parameter [...func(fs)], perhaps with several
    results [rs], where [w] is the word [...func]: in one line or after rows. *)
Inductive pgroup := Flat (ps : plist) | Rows (depth : nat) (rows : list (plist * option str))
  | Calls (ps : plist) (o : option str) (w : str) (fs rs : plist)
  | CallRows (depth : nat) (rows : list (plist * option str)) (o : option str) (w : str) (fs rs : plist) (note : option str).
(** The parameters of such a function are not seen as those of a function: the first
    still belongs to the parameter itself, and its identifiers are types. *)
Definition first_out (p : pen) (fs : plist) : list lexeme :=
  match fs with
  | PNil => []
  | PCons o t rest => match o with Some n => [p_type p n; lx $" "] | None => [] end ++ ty_out p t ++
                      match rest with PNil => [] | _ => lx $"," :: lx $" " :: ps_out p rest end
  end.
Definition call_out (p : pen) (o : option str) (w : str) (fs : plist) : list lexeme :=
  match o with Some n => [p_name p n; lx $" "] | None => [] end ++
  (if reads_as_type o (TFunc fs) then p_type p w else p_name p w) :: lx $"(" :: first_out p fs ++ [lx $")"].
Definition before_last (p : pen) (ps : plist) : list lexeme := match ps with PNil => [] | _ => ps_out p ps ++ [lx $","; lx $" "] end.
Definition note_part (note : option str) : list lexeme := match note with Some c => [lx $" "; comment c] | None => [] end.
Definition prow_out (p : pen) (depth : nat) (r : plist * option str) : list lexeme :=
  tabs (S depth) ++ ps_out p (fst r) ++ lx $"," :: match snd r with Some c => [lx $" "; comment c] | None => [] end ++ [lx [c_nl]].
Definition group_out (p : pen) (g : pgroup) : list lexeme :=
  match g with
  | Flat ps => in_parens (ps_out p ps)
  | Rows n rows => in_parens (lx [c_nl] :: concat (map (prow_out p n) rows) ++ tabs n)
  | Calls ps o w fs rs => in_parens (before_last p ps ++ call_out p o w fs ++ several p rs)
  | CallRows n rows o w fs rs note => in_parens (lx [c_nl] :: concat (map (prow_out p n) rows) ++ tabs (S n) ++ call_out p o w fs ++ several p rs ++ lx $"," :: note_part note ++ lx [c_nl] :: tabs n)
  end.
Definition group_ok (g : pgroup) : Prop :=
  match g with
  | Flat ps => ps_ok ps
  | Rows _ rows => Forall (fun r => fst r <> PNil /\ ps_ok (fst r) /\ match snd r with Some c => c_nl ∉ c | None => True end) rows
  | CallRows _ rows o w fs rs note =>
    Forall (fun r => fst r <> PNil /\ ps_ok (fst r) /\ match snd r with Some c => c_nl ∉ c | None => True end) rows /\
    match o with Some n => param_name n | None => True end /\ ident w /\ ps_ok fs /\ ps_ok rs /\ match note with Some c => c_nl ∉ c | None => True end
  | Calls ps o w fs rs => ps_ok ps /\ match o with Some n => param_name n | None => True end /\ ident w /\ ps_ok fs /\ ps_ok rs
  end.
(** Results do not end with such a parameter. *)
Definition listed (g : pgroup) : Prop := match g with Calls _ _ _ _ _ | CallRows _ _ _ _ _ _ _ => False | _ => True end.
Definition in_line (g : pgroup) : Prop := match g with CallRows _ _ _ _ _ _ _ => False | _ => True end.
Inductive result := RNone | ROne (t : ty) | RFunc (t : ty) (rs : plist) | RMany (g : pgroup).
Definition res_src (r : result) : list lexeme :=
  match r with
  | RNone => []
  | ROne t => lx $" " :: ty_out source t
  | RFunc t rs => lx $" " :: ty_out source t ++ several source rs
  | RMany g => lx $" " :: group_out source g
  end.
(** The tokens of a single result are joined: what stands between spaces and
    braces becomes one node. *)
Definition piece (w : str) : list lexeme := match w with [] => [] | _ => [(w, KParamType)] end.
Fixpoint joined (w : str) (ts : list lexeme) : list lexeme :=
  match ts with
  | [] => piece w
  | (t, k) :: ts => if bool_decide (t ∈ [$" "; $"{"; $"}"]) then piece w ++ (t, k) :: joined [] ts else joined (w ++ t) ts
  end.
Fixpoint res_type (t : ty) : list lexeme :=
  match t with
  | TFunc _ => ty_out param_pen t
  | TFuncR ps r => lx $"func" :: in_parens (ps_out param_pen ps) ++ lx $" " :: res_type r
  | TChan c t => (c, KParamType) :: lx $" " :: res_type t
  | t => joined [] (ty_out source t)
  end.
Definition res_after (r : result) : list lexeme :=
  match r with
  | RNone => []
  | ROne t => lx $" " :: res_type t
  | RFunc t rs => lx $" " :: res_type t ++ several param_pen rs
  | RMany g => lx $" " :: group_out param_pen g
  end.
Definition res_ok (r : result) : Prop :=
  match r with RNone => True | ROne t => ty_ok t /\ res_ty t | RFunc t rs => ty_ok t /\ res_ty t /\ ends_func t /\ ps_ok rs | RMany g => group_ok g /\ listed g end.
(** The result of a function type that is declared: its first identifier outside
    brackets is taken for the name of a function, and what stands after a space
    behind it is treated like the result of a function. *)
Fixpoint after_name (t : ty) : list lexeme :=
  match t with
  | TSlice t => lx $"[" :: lx $"]" :: after_name t
  | TArray n t => lx $"[" :: lx n :: lx $"]" :: after_name t
  | TMap m k t => lx m :: lx $"[" :: ty_out source k ++ lx $"]" :: after_name t
  | TPrefix s t => lx s :: after_name t
  | TChan c t => lx c :: lx $" " :: res_type t
  | TFunc ps => lx $"func" :: in_parens (ps_out param_pen ps)
  | TFuncR ps r => lx $"func" :: in_parens (ps_out param_pen ps) ++ lx $" " :: res_type r
  | t => ty_out source t
  end.
Fixpoint named_first (t : ty) : list lexeme :=
  match t with
  | TWord w => [now KFuncName w]
  | TGeneric w args => now KFuncName w :: lx $"[" :: ps_out source args ++ [lx $"]"]
  | TSlice t => lx $"[" :: lx $"]" :: named_first t
  | TArray n t => lx $"[" :: lx n :: lx $"]" :: named_first t
  | TMap m k t => now KFuncName m :: lx $"[" :: ty_out source k ++ lx $"]" :: if bool_decide (m = $"map") then named_first t else after_name t
  | TChan c t => now KFuncName c :: lx $" " :: if bool_decide (c = $"chan") then named_first t else res_type t
  | TEmpty w => [now KFuncName w; lx $"{"; lx $"}"]
  | TPrefix s t => lx s :: named_first t
  | TFunc ps => lx $"func" :: in_parens (ps_out param_pen ps)
  | TFuncR ps r => lx $"func" :: in_parens (ps_out param_pen ps) ++ lx $" " :: named_first r
  end.
(** What is treated like the result of a function is the type of a single result. *)
Fixpoint after_ok (t : ty) : Prop :=
  match t with
  | TSlice t | TArray _ t | TMap _ _ t | TPrefix _ t => after_ok t
  | TChan _ t | TFuncR _ t => res_ty t
  | _ => True
  end.
Fixpoint first_ok (t : ty) : Prop :=
  match t with
  | TSlice t | TArray _ t | TPrefix _ t | TFuncR _ t => first_ok t
  | TMap m _ t => if bool_decide (m = $"map") then first_ok t else after_ok t
  | TChan c t => if bool_decide (c = $"chan") then first_ok t else res_ty t
  | _ => True
  end.
Definition fres_after (r : result) : list lexeme := 
  match r with ROne t => lx $" " :: named_first t | RFunc t rs => lx $" " :: named_first t ++ several param_pen rs | r => res_after r end.
Definition fres_ok (r : result) : Prop := 
  match r with ROne t => ty_ok t /\ first_ok t | RFunc t rs => ty_ok t /\ first_ok t /\ ends_func t /\ ps_ok rs | r => res_ok r end.
(** After parameters in several lines, results in one line must not begin with
    something that looks like a declaration. *)
Definition after_rows (g : pgroup) (r : result) : Prop :=
  match g, r with
  | Rows _ _, RMany (Flat rs) | CallRows _ _ _ _ _ _ _, RMany (Flat rs) => forall t k ts, ps_out source rs = (t, k) :: ts -> ~ exists kw, begins kw t
  | _, _ => True
  end.
(** ** Code: function bodies, and what follows package, import, var and const *)
(** Brackets match up. *)
Inductive matched : list str -> Prop :=
| ma_nil : matched []
| ma_other t ts : t ∉ [$"("; $")"; $"["; $"]"; $"{"; $"}"] -> matched ts -> matched (t :: ts)
| ma_pair o c ts ts' : (o, c) ∈ [($"(", $")"); ($"[", $"]"); ($"{", $"}")] -> matched ts -> matched ts' -> matched (o :: ts ++ c :: ts').
(** Type parameters: words, commas and brackets in one line. *)
Definition tps_out (tps : list str) : list lexeme :=
  match tps with [] => [] | _ => lx $"[" :: map lx tps ++ [lx $"]"] end.
Definition tps_ok (tps : list str) : Prop :=
  matched tps /\ Forall (fun t => plain_word t \/ t ∈ [$" "; $","; $"("; $")"; $"["; $"]"; $"{"; $"}"]) tps /\
  forall xs t u ys, tps = xs ++ t :: u :: ys -> plain_word t -> ~ plain_word u.
(** What may come before a token that begins with a scope keyword (or is a
    comment): a separator, but no line break; if it is an opening parenthesis or
    brace, there must be a word before it. *)
Definition shielded (xs : list str) : Prop :=
  (exists ys c, xs = ys ++ [[c]] /\ c ∈ separators /\ c ∉ [c_nl; "("%char; "{"%char]) \/
  (exists ys w o, xs = ys ++ [w; o] /\ is_word w /\ o ∈ [$"("; $"{"]).
Definition quiet (ts : list str) : Prop :=
  forall xs t ys, ts = xs ++ t :: ys -> (exists k, begins k t) -> shielded xs.
(** Code with [before] before it and [after] after it. *)
Definition code_ok (before after : list lexeme) (ts : list lexeme) : Prop :=
  matched (map fst ts) /\ spelled (before ++ ts ++ after) /\ quiet (map fst ts).

(** ** Fields of structs *)
Definition spaces (n : nat) : list lexeme := repeat (lx $" ") n.
(** A field may be a struct of its own, or slices, arrays or maps of it. *)
Inductive holder := HSlice | HArray (n : str) | HMap (m : str) (k : ty).
Inductive srow :=
| FieldRow (n : str) (more : list str) (pad : nat) (t : ty) (rs : plist) (tag : option (nat * str)) (note : option (nat * str))  (* n, more t (rs) "tag" // note *)
| OpenRow (n : str) (more : list str) (pad : nat) (hs : list holder) (w : str)                                      (* n, more []struct { *)
| CloseRow (tag : option (nat * str)) (note : option (nat * str))                                                   (* } "tag" // note *)
| EmbedRow (t : ty) (tag : option (nat * str)) (note : option (nat * str))
| CommentRow (c : str)
| BlankRow.
Definition tail_out (tag note : option (nat * str)) : list lexeme :=
  match tag with Some (n, t) => spaces (S n) ++ [(t, KString)] | None => [] end ++
  match note with Some (n, c) => spaces (S n) ++ [comment c] | None => [] end.
Definition names_out (p : pen) (n : str) (more : list str) (pad : nat) : list lexeme :=
  p_name p n :: concat (map (fun m => [lx $","; lx $" "; p_name p m]) more) ++ spaces (S pad).
Definition holder_out (p : pen) (h : holder) : list lexeme :=
  match h with
  | HSlice => [lx $"["; lx $"]"]
  | HArray n => [lx $"["; p_index p n; lx $"]"]
  | HMap m k => p_type p m :: lx $"[" :: ty_out (inside p) k ++ [lx $"]"]
  end.
(** An embedded type that is a single word with a tag or a comment after it is taken
    for a name. *)
Definition embed_out (p : pen) (t : ty) (tail : list lexeme) : list lexeme :=
  match t, tail with TWord w, _ :: _ => [p_name p w] | _, _ => ty_out p t end.
(** A row, indented by [d].  All identifiers in a list of results are taken for types. *)
Definition srow_out (p : pen) (d : nat) (r : srow) : list lexeme :=
  match r with
  | FieldRow n more pad t rs tag note => tabs d ++ names_out p n more pad ++ ty_out p t ++ several (inside p) rs ++ tail_out tag note ++ [lx [c_nl]]
  | OpenRow n more pad hs w => tabs d ++ names_out p n more pad ++ concat (map (holder_out p) hs) ++ [p_type p w; lx $" "; lx $"{"; lx [c_nl]]
  | CloseRow tag note => tabs d ++ lx $"}" :: tail_out tag note ++ [lx [c_nl]]
  | EmbedRow t tag note => tabs d ++ embed_out p t (tail_out tag note) ++ tail_out tag note ++ [lx [c_nl]]
  | CommentRow c => tabs d ++ [comment c; lx [c_nl]]
  | BlankRow => [lx [c_nl]]
  end.
Fixpoint srows_out (p : pen) (d : nat) (rows : list srow) : list lexeme :=
  match rows with
  | [] => []
  | (OpenRow _ _ _ _ _) as r :: rows => srow_out p d r ++ srows_out p (S d) rows
  | (CloseRow _ _) as r :: rows => srow_out p (pred d) r ++ srows_out p (pred d) rows
  | r :: rows => srow_out p d r ++ srows_out p d rows
  end.
Definition tag_ok (tag : option (nat * str)) : Prop := match tag with Some (_, s) => (whole DString s \/ whole DRaw s) /\ c_nl ∉ s | None => True end.
Definition note_ok (note : option (nat * str)) : Prop := match note with Some (_, c) => c_nl ∉ c | None => True end.
Definition holder_ok (h : holder) : Prop :=
  match h with HSlice => True | HArray n => index_word n | HMap m k => (m = $"map" \/ ident m) /\ ty_ok k /\ no_func k end.
(** Names, or a single _. *)
Definition names_ok (n : str) (more : list str) : Prop := ident n /\ Forall ident more \/ n = $"_" /\ more = [].
Definition srow_ok (r : srow) : Prop :=
  match r with
  | FieldRow n more _ t rs tag note => names_ok n more /\ ty_ok t /\ (rs = PNil \/ ends_func t /\ ps_ok rs /\ ps_no_func rs) /\ tag_ok tag /\ note_ok note
  | OpenRow n more _ hs w => names_ok n more /\ Forall holder_ok hs /\ (w = $"struct" \/ ident w)
  | CloseRow tag note => tag_ok tag /\ note_ok note
  | EmbedRow t tag note => ty_ok t /\ match t with TWord _ | TGeneric _ _ => True | _ => False end /\ tag_ok tag /\ note_ok note
  | CommentRow c => c_nl ∉ c
  | BlankRow => True
  end.
(** Rows, [d] braces deep: every opening row has its closing row. *)
Fixpoint srows_ok (d : nat) (rows : list srow) : Prop :=
  match rows with
  | [] => d = 1
  | r :: rows => srow_ok r /\
    match r with
    | OpenRow _ _ _ _ _ => srows_ok (S d) rows
    | CloseRow _ _ => 2 <= d /\ srows_ok (pred d) rows
    | _ => srows_ok d rows
    end
  end.

(** ** Methods of interfaces *)
Inductive irow :=
| IMethod (n : str) (ps : pgroup) (r : result) (note : option str)
| IElems (w : str) (more : list str) (note : option str)   (* an embedded type, or a union of types *)
| IComment (c : str)
| IBlank.
Definition note_out (note : option str) : list lexeme :=
  match note with Some c => [lx $" "; comment c; lx [c_nl]] | None => [lx [c_nl]] end.
Definition irow_src (r : irow) : list lexeme :=
  match r with
  | IMethod n ps r note => lx [c_tab] :: lx n :: group_out source ps ++ res_src r ++ note_out note
  | IElems w more note => lx [c_tab] :: lx w :: map lx more ++ note_out note
  | IComment c => [lx [c_tab]; comment c; lx [c_nl]]
  | IBlank => [lx [c_nl]]
  end.
Definition irow_after (r : irow) : list lexeme :=
  match r with
  | IMethod n ps r note => lx [c_tab] :: (n, KFuncName) :: group_out param_pen ps ++ res_after r ++ note_out note
  | IElems w more note => lx [c_tab] :: now KTypeName w :: map lx more ++ note_out note
  | r => irow_src r
  end.
Definition irow_ok (r : irow) : Prop :=
  match r with
  | IMethod n ps r note => ident n /\ group_ok ps /\ in_line ps /\ res_ok r /\ after_rows ps r /\ match note with Some c => c_nl ∉ c | None => True end
  | IElems w more note => type_word w /\ tps_ok (w :: more) /\ Forall (fun t => t ∉ [$"("; $")"; $"{"; $"}"]) more /\ match note with Some c => c_nl ∉ c | None => True end
  | IComment c => c_nl ∉ c
  | IBlank => True
  end.

(** ** Declarations *)
Inductive decl :=
| DFunc (recv : option (option str * ty)) (name : str) (tps : list str) (ps : pgroup) (r : result) (body : option (list lexeme)) (note : option str)
| DStruct (name : str) (tps : list str) (rows : list srow) (note : option str)
| DInterface (name : str) (tps : list str) (rows : list irow) (note : option str)
| DType (name : str) (tps : list str) (alias : bool) (t : ty) (rs : plist) (note : option str)
| DFuncType (name : str) (tps : list str) (ps : pgroup) (r : result) (note : option str)
| DGroup (code : list lexeme)                 (* type ( code ) *)
| DOther (kw : str) (code : list lexeme)      (* package, import, var, const *)
| DLineComment (c : str)
| DBlockComment (c : str).

Definition recv_out (p : pen) (recv : option (option str * ty)) : list lexeme :=
  match recv with Some (o, t) => in_parens (ps_out p (PCons o t PNil)) ++ [lx $" "] | None => [] end.
Definition type_head (name : lexeme) (tps : list str) : list lexeme := lx $"type" :: lx $" " :: name :: tps_out tps ++ [lx $" "].
Definition alias_out (alias : bool) : list lexeme := if alias then [lx $"="; lx $" "] else [].
Definition body_out (body : option (list lexeme)) : list lexeme :=
  match body with Some code => lx $" " :: lx $"{" :: code ++ [lx $"}"] | None => [] end.
Definition body_ok (body : option (list lexeme)) : Prop := match body with Some code => code_ok [lx $"{"] [lx $"}"] code | None => True end.
Definition end_ok (note : option str) : Prop := match note with Some c => c_nl ∉ c | None => True end.
(** The tokens of a declaration, up to the end of its last line. *)
Definition decl_src (d : decl) : list lexeme :=
  match d with
  | DFunc recv name tps ps r body note =>
    lx $"func" :: lx $" " :: recv_out source recv ++ lx name :: tps_out tps ++ group_out source ps ++ res_src r ++ body_out body ++ note_out note
  | DStruct name tps rows note =>
    type_head (lx name) tps ++ lx $"struct" :: lx $" " :: lx $"{" :: lx [c_nl] :: srows_out source 1 rows ++ lx $"}" :: note_out note
  | DInterface name tps rows note =>
    type_head (lx name) tps ++ lx $"interface" :: lx $" " :: lx $"{" :: lx [c_nl] :: concat (map irow_src rows) ++ lx $"}" :: note_out note
  | DType name tps alias t rs note => type_head (lx name) tps ++ alias_out alias ++ ty_out source t ++ several source rs ++ note_out note
  | DFuncType name tps ps r note => type_head (lx name) tps ++ lx $"func" :: group_out source ps ++ res_src r ++ note_out note
  | DGroup code => lx $"type" :: lx $" " :: lx $"(" :: lx [c_nl] :: code ++ [lx $")"; lx [c_nl]]
  | DOther kw code => lx kw :: code ++ [lx [c_nl]]
  | DLineComment c => [comment c; lx [c_nl]]
  | DBlockComment c => [(c, KComment); lx [c_nl]]
  end.
(** A type that stands for itself: a named type is one node, to which the space
    before a comment is joined. *)
Fixpoint alone (t : ty) : Prop :=
  match t with
  | TWord _ | TFunc _ => True
  | TGeneric _ args => ps_flat args
  | TSlice t | TArray _ t | TPrefix _ t => alone t
  | TMap m k t => if bool_decide (m = $"map") then alone t else flat k /\ flat t
  | TChan c t => if bool_decide (c = $"chan") then alone t else flat t
  | TEmpty w => w ∈ [$"interface"; $"struct"]
  | TFuncR _ r => first_ok r
  end.
Definition one_node (t : ty) (note : option str) : list lexeme :=
  match note with
  | Some c => [(spelling (ty_out source t) ++ $" ", KParamType); comment c; lx [c_nl]]
  | None => [(spelling (ty_out source t), KParamType); lx [c_nl]]
  end.
Fixpoint type_after (t : ty) (rs : plist) (note : option str) : list lexeme :=
  match t with
  | TWord w => if bool_decide (kind_new w = KRaw) then one_node t note else lx w :: note_out note
  | TGeneric w args => one_node t note
  | TSlice t => lx $"[" :: lx $"]" :: type_after t rs note
  | TArray n t => lx $"[" :: lx n :: lx $"]" :: type_after t rs note
  | TMap m k t' => if bool_decide (m = $"map") then lx m :: lx $"[" :: ty_out source k ++ lx $"]" :: type_after t' rs note else one_node t note
  | TChan c t' => if bool_decide (c = $"chan") then lx c :: lx $" " :: type_after t' rs note else one_node t note
  | TPrefix s t => lx s :: type_after t rs note
  | TEmpty _ => ty_out source t ++ note_out note
  | TFunc ps => lx $"func" :: in_parens (ps_out param_pen ps) ++ several param_pen rs ++ note_out note
  | TFuncR ps r => lx $"func" :: in_parens (ps_out param_pen ps) ++ lx $" " :: named_first r ++ several param_pen rs ++ note_out note
  end.
(** After a parameter [...func] on a line of its own the signature ends with that
    line: the results are left alone. *)
Definition func_after (g : pgroup) (r : result) : list lexeme := match g with CallRows _ _ _ _ _ _ _ => res_src r | _ => res_after r end.
(** What its nodes are expected to show after parsing. *)
Definition decl_after (d : decl) : list lexeme :=
  match d with
  | DFunc recv name tps ps r body note =>
    lx $"func" :: lx $" " :: recv_out receiver_pen recv ++ (name, KFuncName) :: tps_out tps ++ group_out param_pen ps ++ func_after ps r ++ body_out body ++ note_out note
  | DStruct name tps rows note =>
    type_head (name, KTypeName) tps ++ lx $"struct" :: lx $" " :: lx $"{" :: lx [c_nl] :: srows_out field_pen 1 rows ++ lx $"}" :: note_out note
  | DInterface name tps rows note =>
    type_head (name, KTypeName) tps ++ lx $"interface" :: lx $" " :: lx $"{" :: lx [c_nl] :: concat (map irow_after rows) ++ lx $"}" :: note_out note
  | DType name tps alias t rs note => type_head (name, KTypeName) tps ++ alias_out alias ++ type_after t rs note
  | DFuncType name tps ps r note =>
    type_head (name, KTypeName) tps ++ lx $"func" :: group_out param_pen ps ++ fres_after r ++ note_out note
  | d => decl_src d
  end.
Definition decl_kind (d : decl) : str :=
  match d with
  | DFunc _ _ _ _ _ _ _ => $"func"
  | DStruct _ _ _ _ | DInterface _ _ _ _ | DType _ _ _ _ _ _ | DFuncType _ _ _ _ _ | DGroup _ => $"type"
  | DOther kw _ => kw
  | DLineComment _ => $"//"
  | DBlockComment _ => $"/*"
  end.
Definition decl_ok (d : decl) : Prop :=
  match d with
  | DFunc recv name tps ps r body note =>
    match recv with Some (o, t) => ps_ok (PCons o t PNil) /\ no_func t | None => True end /\
    ident name /\ tps_ok tps /\ group_ok ps /\ res_ok r /\ after_rows ps r /\ body_ok body /\ end_ok note
  | DStruct name tps rows note => ident name /\ tps_ok tps /\ srows_ok 1 rows /\ end_ok note
  | DInterface name tps rows note => ident name /\ tps_ok tps /\ Forall irow_ok rows /\ end_ok note
  | DType name tps _ t rs note => ident name /\ tps_ok tps /\ ty_ok t /\ alone t /\ (rs = PNil \/ ends_func t /\ ps_ok rs) /\ end_ok note
  | DFuncType name tps ps r note => ident name /\ tps_ok tps /\ group_ok ps /\ in_line ps /\ fres_ok r /\ after_rows ps r /\ end_ok note
  | DGroup code => code_ok [lx [c_nl]] [lx $")"; lx [c_nl]] code
  | DOther kw code => kw ∈ [$"package"; $"import"; $"var"; $"const"] /\ code_ok [lx kw] [lx [c_nl]] code
  | DLineComment c => c_nl ∉ c
  | DBlockComment c => whole DBlock c
  end.

(** A file: declarations, each followed by empty lines. *)
Definition item : Type := decl * nat.
Definition blank (n : nat) : list lexeme := repeat (lx [c_nl]) n.
Definition item_text (i : item) : str := spelling (decl_src (fst i) ++ blank (snd i)).
Definition item_shape (i : item) : str * list lexeme := (decl_kind (fst i), decl_after (fst i) ++ blank (snd i)).
Definition file_text (is : list item) : str := concat (map item_text is).
(** The line, counted from 1, on which each declaration begins. *)
Fixpoint item_lines (n : Z) (is : list item) : list Z :=
  match is with [] => [] | i :: r => n :: item_lines (n + count_nl (item_text i)) r end.

(** ** Getters *)
(** The identifier that is the base of a receiver's type. *)
Fixpoint base_word (t : ty) : option str :=
  match t with
  | TWord w => if bool_decide (kind_new w = KRaw) then Some w else None
  | TGeneric w _ => Some w
  | TSlice t | TArray _ t | TPrefix _ t => base_word t
  | TMap m _ t => if bool_decide (m = $"map") then base_word t else Some m
  | TChan c t => if bool_decide (c = $"chan") then base_word t else Some c
  | TEmpty w => if bool_decide (kind_new w = KRaw) then Some w else None
  | TFunc _ | TFuncR _ _ => None
  end.
(** The next identifier. *)
Fixpoint second_word (t : ty) : option str :=
  match t with
  | TSlice t | TArray _ t | TPrefix _ t => second_word t
  | TMap m _ t => if bool_decide (m = $"map") then second_word t else base_word t
  | TChan c t => if bool_decide (c = $"chan") then second_word t else base_word t
  | _ => None
  end.
(** The base may be taken for a name, see above. *)
Definition receiver_word (recv : option (option str * ty)) : option str :=
  match recv with Some (o, t) => if reads_as_type o t then base_word t else second_word t | None => None end.
(** The keyword [w] is a node of the declaration: it occurs in it, and not only
    where it is joined to the node of a single result. *)
Definition mentions (w : str) (d : decl) : bool := bool_decide (lx w ∈ decl_after d).
(** What the getters are expected to say about its scope. *)
Definition answers (h : heap) (sc : scope) (d : decl) : Prop :=
  match d with
  | DFunc recv name _ _ _ _ _ =>
    get_func_name h sc = Ok (name, true) /\
    match receiver_word recv with
    | Some w => get_method_receiver h sc = Ok (w, true) /\ get_method_name h sc = Ok (name, true)
    | None => (exists s, get_method_receiver h sc = Ok (s, false)) /\ get_method_name h sc = Ok ([], false)
    end
  | _ => get_func_name h sc = Ok ([], false) /\ get_method_name h sc = Ok ([], false) /\ get_method_receiver h sc = Ok ([], false)
  end /\
  match d with
  | DStruct name _ _ _ | DInterface name _ _ _ | DType name _ _ _ _ _ | DFuncType name _ _ _ _ =>
    get_type_name h sc = Ok (name, true) /\
    get_struct_name h sc = Ok (name, mentions $"struct" d) /\ get_interface_name h sc = Ok (name, mentions $"interface" d)
  | DGroup _ => exists s, get_type_name h sc = Ok (s, false)
  | _ => get_type_name h sc = Ok ([], false) /\ get_struct_name h sc = Ok ([], false) /\ get_interface_name h sc = Ok ([], false)
  end.
