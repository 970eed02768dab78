(** Specification of the refined kinds: what the tokens of a declaration become
    when the declaration is refined.  A lexeme is a text with a kind; a relation
    [r ts ts'] says that the tokens [ts] become the nodes [ts']. *)
From Verif Require Export SpecText.

Notation lexeme := (str * kind)%type (only parsing).
(** What a node shows. *)
Definition shows (h : heap) (l : loc) : lexeme := (text_of h (Some l), kind_of h (Some l)).

(** ** Parameters *)
Definition white : list kind := [KSpace; KTab; KComment; KNewLine].
(** The number of tokens before the first comma or closing parenthesis, without
    white space and comments. *)
Fixpoint words (ts : list lexeme) : nat :=
  match ts with
  | [] => 0
  | (_, k) :: ts => if bool_decide (k ∈ [KComma; KParenR]) then 0
                    else if bool_decide (k ∈ white) then words ts else S (words ts)
  end.
(** In the fields of a struct ([deep]) identifiers in square brackets are types,
    elsewhere they are left alone. *)
Definition typed (deep : bool) (l : lexeme) : lexeme := if deep && bool_decide (snd l = KRaw) then (fst l, KParamType) else l.
(** [refines deep name typ b ts ts'] : identifiers become [typ], but the first
    becomes [name] unless [b]; everything else is unchanged, and all that stands
    in square brackets is as just said.  The parameters of a parameter of a
    function type become parameters themselves.

    [params deep name typ ts ts'] : the same for parameters separated by commas; a
    parameter that is a single word is a type. *)
Inductive refines (deep : bool) : kind -> kind -> bool -> list lexeme -> list lexeme -> Prop :=
| rf_nil name typ b : refines deep name typ b [] []
| rf_raw name typ b t ts ts' : refines deep name typ true ts ts' ->
    refines deep name typ b ((t, KRaw) :: ts) ((t, if b then typ else name) :: ts')
| rf_other name typ b t k ts ts' : k ∉ [KRaw; KParamName; KParamType; KComma; KParenL; KParenR; KSquareL; KFunc] ->
    refines deep name typ b ts ts' -> refines deep name typ b ((t, k) :: ts) ((t, k) :: ts')
| rf_square name typ b t ps u ts ts' : squares (map snd ps) -> refines deep name typ b ts ts' ->
    refines deep name typ b ((t, KSquareL) :: ps ++ (u, KSquareR) :: ts) ((t, KSquareL) :: map (typed deep) ps ++ (u, KSquareR) :: ts')
| rf_func name typ b t u ps ps' v ts ts' : params deep KParamName KParamType ps ps' -> refines deep name typ b ts ts' ->
    refines deep name typ b ((t, KFunc) :: (u, KParenL) :: ps ++ (v, KParenR) :: ts)
                            ((t, KFunc) :: (u, KParenL) :: ps' ++ (v, KParenR) :: ts')
(** [...func(]: no keyword is recognized; the parenthesis is ignored, and the
    identifiers behind it belong to the same parameter. *)
| rf_call b t u ts ts' : refines deep KParamName KParamType true ts ts' ->
    refines deep KParamName KParamType b ((t, KRaw) :: (u, KParenL) :: ts) ((t, if b then KParamType else KParamName) :: (u, KParenL) :: ts')
with params (deep : bool) : kind -> kind -> list lexeme -> list lexeme -> Prop :=
| pm_one name typ p p' : refines deep name typ (bool_decide (words p = 1)) p p' -> params deep name typ p p'
| pm_more name typ p p' t ps ps' : refines deep name typ (bool_decide (words p = 1)) p p' -> params deep name typ ps ps' ->
    params deep name typ (p ++ (t, KComma) :: ps) (p' ++ (t, KComma) :: ps').
(** A list in parentheses. *)
Inductive parens (name typ : kind) : list lexeme -> list lexeme -> Prop :=
| pr_intro t ps ps' u : params false name typ ps ps' ->
    parens name typ ((t, KParenL) :: ps ++ [(u, KParenR)]) ((t, KParenL) :: ps' ++ [(u, KParenR)]).

(** ** Results *)
(** Brackets of one sort match up. *)
Inductive nested (l r : kind) : list kind -> Prop :=
| ne_nil : nested l r []
| ne_other k ks : k <> l -> k <> r -> nested l r ks -> nested l r (k :: ks)
| ne_pair ks ks' : nested l r ks -> nested l r ks' -> nested l r (l :: ks ++ r :: ks').
Definition merged (w : list lexeme) : lexeme := (concat (map fst w), KParamType).
(** The tokens of one word of a result type, up to a space, a newline or a
    brace, become one node. *)
Definition word (w : list lexeme) : Prop :=
  w <> [] /\ (forall k, k ∈ map snd w -> k ∉ [KSpace; KNewLine; KCurlyL; KComment]) /\
  (forall k, head (map snd w) = Some k -> k <> KParenL /\ k <> KFunc).
Inductive results : list lexeme -> list lexeme -> Prop :=
| rs_nil : results [] []
(** [ (results)] *)
| rs_list s ps ps' ts ts' : parens KParamName KParamType ps ps' -> results ts ts' ->
    results ((s, KSpace) :: ps ++ ts) ((s, KSpace) :: ps' ++ ts')
(** [ Type] *)
| rs_word s w ts ts' : word w -> results ts ts' ->
    results ((s, KSpace) :: w ++ ts) ((s, KSpace) :: merged w :: ts')
(** [ interface{}], [ map[string]struct{}]: the braces and what is between them
    are not changed. *)
| rs_brace s w o b c ts ts' : word w -> nested KCurlyL KCurlyR (map snd b) -> results ts ts' ->
    results ((s, KSpace) :: w ++ (o, KCurlyL) :: b ++ (c, KCurlyR) :: ts) ((s, KSpace) :: merged w :: (o, KCurlyL) :: b ++ (c, KCurlyR) :: ts')
(** [ func(params)] *)
| rs_func s t u ps ps' v ts ts' : params false KParamName KParamType ps ps' -> results ts ts' ->
    results ((s, KSpace) :: (t, KFunc) :: (u, KParenL) :: ps ++ (v, KParenR) :: ts) ((s, KSpace) :: (t, KFunc) :: (u, KParenL) :: ps' ++ (v, KParenR) :: ts').

(** What stands between the parameters and the end of a signature.  After a
    parameter [...func(A)] or [...func(A) (B, C)] the parameters end with the first
    closing parenthesis, and the last one stands alone between them and the results;
    so does a comma, with which the line and therefore the signature ends. *)
Inductive outcome : list lexeme -> list lexeme -> Prop :=
| oc_plain ts ts' : results ts ts' -> outcome ts ts'
| oc_stray k u ts ts' : k ∈ [KParenR; KComma] -> results ts ts' -> outcome ((u, k) :: ts) ((u, k) :: ts')
| oc_list s ps ps' k u ts ts' : k ∈ [KParenR; KComma] -> parens KParamName KParamType ps ps' -> results ts ts' ->
    outcome ((s, KSpace) :: ps ++ (u, k) :: ts) ((s, KSpace) :: ps' ++ (u, k) :: ts').

(** ** Functions *)
(** [Name(params)results], perhaps with type parameters *)
Inductive signature : list lexeme -> list lexeme -> Prop :=
| sg_plain n ps ps' ts ts' : parens KParamName KParamType ps ps' -> outcome ts ts' ->
    signature ((n, KRaw) :: ps ++ ts) ((n, KFuncName) :: ps' ++ ts')
| sg_generic n t gs u ps ps' ts ts' : squares (map snd gs) -> parens KParamName KParamType ps ps' -> outcome ts ts' ->
    signature ((n, KRaw) :: (t, KSquareL) :: gs ++ (u, KSquareR) :: ps ++ ts)
              ((n, KFuncName) :: (t, KSquareL) :: gs ++ (u, KSquareR) :: ps' ++ ts').
(** The end of a line, perhaps with a comment. *)
Inductive line_end : list lexeme -> Prop :=
| le_line u : line_end [(u, KNewLine)]
| le_comment s c u : line_end [(s, KSpace); (c, KComment); (u, KNewLine)].
(** What comes after a signature and is not changed: everything, if the
    signature ends with the line; the brace that opens the body; and
    everything, if the line ends where the body ends. *)
Inductive sig_end : list lexeme -> Prop :=
| se_line e ts : line_end e -> sig_end (e ++ ts)
| se_open s t : sig_end [(s, KSpace); (t, KCurlyL)]
| se_body s t body u e ts : nested KCurlyL KCurlyR (map snd body) -> line_end e ->
    sig_end ((s, KSpace) :: (t, KCurlyL) :: body ++ (u, KCurlyR) :: e ++ ts).
(** Functions and methods.  [ks] are the kinds of the whole declaration. *)
Inductive func_decl (ks : list kind) : list lexeme -> list lexeme -> Prop :=
| fd_func f s ts ts' e : signature ts ts' -> sig_end e ->
    func_decl ks ((f, KFunc) :: (s, KSpace) :: ts ++ e) ((f, KFunc) :: (s, KSpace) :: ts' ++ e)
| fd_method f s r r' s2 ts ts' e : ~ called_at_once ks -> KFunc ∉ map snd r ->
    parens KMethodReceiverName KMethodReceiverType r r' -> signature ts ts' -> sig_end e ->
    func_decl ks ((f, KFunc) :: (s, KSpace) :: r ++ (s2, KSpace) :: ts ++ e)
                 ((f, KFunc) :: (s, KSpace) :: r' ++ (s2, KSpace) :: ts' ++ e).

(** ** Fields of a struct *)
(** The beginning of a row, in which its names stand. *)
Fixpoint name_part (ks : list kind) : list kind :=
  match ks with
  | [] => []
  | k :: ks => if bool_decide (k ∈ [KComment; KTab; KRaw; KSpace; KComma]) then k :: name_part ks else []
  end.
(** An identifier with a space somewhere after it. *)
Fixpoint gap (ks : list kind) : bool :=
  match ks with
  | [] => false
  | k :: ks => if bool_decide (k = KRaw) then bool_decide (KSpace ∈ ks) else gap ks
  end.
Definition commas (ks : list kind) : nat := length (filter (fun k => k = KComma) ks).
(** The number of names of a row: one more than there are commas; without a
    comma one, if an identifier is followed by a space, and none otherwise. *)
Definition names (ks : list kind) : nat :=
  let ks := name_part ks in
  match commas ks with 0 => if gap ks then 1 else 0 | c => S c end.
(** [row n ts ts'] : the first [n] identifiers are names, the others are types;
    the parameters of function types are parameters. *)
Inductive row : nat -> list lexeme -> list lexeme -> Prop :=
| rw_nil n : row n [] []
| rw_name n t ts ts' : row n ts ts' -> row (S n) ((t, KRaw) :: ts) ((t, KParamName) :: ts')
| rw_type t ts ts' : row 0 ts ts' -> row 0 ((t, KRaw) :: ts) ((t, KParamType) :: ts')
| rw_other n t k ts ts' : k ∉ [KRaw; KFunc; KNewLine] -> row n ts ts' -> row n ((t, k) :: ts) ((t, k) :: ts')
| rw_func n t u ps ps' v ts ts' : params true KParamName KParamType ps ps' -> row n ts ts' ->
    row n ((t, KFunc) :: (u, KParenL) :: ps ++ (v, KParenR) :: ts) ((t, KFunc) :: (u, KParenL) :: ps' ++ (v, KParenR) :: ts').
Inductive fields : list lexeme -> list lexeme -> Prop :=
| fl_nil : fields [] []
| fl_skip t k ts ts' : k ∈ [KComment; KNewLine; KCurlyL] -> fields ts ts' -> fields ((t, k) :: ts) ((t, k) :: ts')
| fl_row t k r r' u ts ts' : k ∉ [KComment; KNewLine; KCurlyL; KCurlyR] -> row (names (k :: map snd r)) ((t, k) :: r) r' -> fields ts ts' ->
    fields ((t, k) :: r ++ (u, KNewLine) :: ts) (r' ++ (u, KNewLine) :: ts').

(** ** Methods of an interface *)
Inductive methods : list lexeme -> list lexeme -> Prop :=
| mt_nil : methods [] []
| mt_skip t k ts ts' : k ∈ [KTab; KComment; KNewLine; KSpace; KCurlyL] -> methods ts ts' -> methods ((t, k) :: ts) ((t, k) :: ts')
(** [Name(params)results] *)
| mt_method n ps ps' rs rs' e ts ts' : parens KParamName KParamType ps ps' -> outcome rs rs' -> line_end e -> methods ts ts' ->
    methods (((n, KRaw) :: ps ++ rs) ++ e ++ ts) (((n, KFuncName) :: ps' ++ rs') ++ e ++ ts')
(** An embedded type, or something else without parentheses. *)
| mt_type t k es u ts ts' : k ∉ [KTab; KComment; KNewLine; KSpace; KCurlyL; KCurlyR; KParenL; KParenR; KSquareL; KSquareR] ->
    (forall x, x ∈ map snd es -> x ∉ [KNewLine; KParenL; KParenR; KCurlyL; KCurlyR]) -> squares (map snd es) -> methods ts ts' ->
    methods ((t, k) :: es ++ (u, KNewLine) :: ts) ((t, if bool_decide (k = KRaw) then KTypeName else k) :: es ++ (u, KNewLine) :: ts').

(** ** Types *)
(** The results of a function type, once an identifier outside brackets is past: the
    first space begins what would be the result of a function. *)
Inductive named_result : list lexeme -> list lexeme -> Prop :=
| nr_results ts ts' e : results ts ts' -> e = [] \/ (exists s c, e = [(s, KSpace); (c, KComment)]) -> named_result (ts ++ e) (ts' ++ e)
| nr_other t k ts ts' : k ∉ [KNewLine; KSpace; KParenL; KCurlyL; KSquareL] -> named_result ts ts' -> named_result ((t, k) :: ts) ((t, k) :: ts')
| nr_square t ps u ts ts' : squares (map snd ps) -> named_result ts ts' ->
    named_result ((t, KSquareL) :: ps ++ (u, KSquareR) :: ts) ((t, KSquareL) :: ps ++ (u, KSquareR) :: ts')
| nr_curly t b u ts ts' : nested KCurlyL KCurlyR (map snd b) -> named_result ts ts' ->
    named_result ((t, KCurlyL) :: b ++ (u, KCurlyR) :: ts) ((t, KCurlyL) :: b ++ (u, KCurlyR) :: ts')
| nr_list ps ps' ts ts' : parens KParamName KParamType ps ps' -> named_result ts ts' -> named_result (ps ++ ts) (ps' ++ ts').
(** The results of a function type: the first identifier outside brackets is taken for
    the name of a function. *)
Inductive type_results : list lexeme -> list lexeme -> Prop :=
| tr_nil : type_results [] []
| tr_other t k ts ts' : k ∉ [KNewLine; KRaw; KParenL; KCurlyL; KSquareL] -> type_results ts ts' -> type_results ((t, k) :: ts) ((t, k) :: ts')
| tr_square t ps u ts ts' : squares (map snd ps) -> type_results ts ts' ->
    type_results ((t, KSquareL) :: ps ++ (u, KSquareR) :: ts) ((t, KSquareL) :: ps ++ (u, KSquareR) :: ts')
| tr_curly t b u ts ts' : nested KCurlyL KCurlyR (map snd b) -> type_results ts ts' ->
    type_results ((t, KCurlyL) :: b ++ (u, KCurlyR) :: ts) ((t, KCurlyL) :: b ++ (u, KCurlyR) :: ts')
| tr_list ps ps' ts ts' : parens KParamName KParamType ps ps' -> type_results ts ts' -> type_results (ps ++ ts) (ps' ++ ts')
| tr_name n ts ts' : named_result ts ts' -> type_results ((n, KRaw) :: ts) ((n, KFuncName) :: ts').
(** What a type is made of, once the name and a space are past. *)
Inductive texpr : list lexeme -> list lexeme -> Prop :=
| te_nil : texpr [] []
| te_other t k ts ts' : k ∉ [KInterface; KStruct; KFunc; KRaw; KSquareL] -> texpr ts ts' -> texpr ((t, k) :: ts) ((t, k) :: ts')
| te_square t ps u ts ts' : squares (map snd ps) -> texpr ts ts' ->
    texpr ((t, KSquareL) :: ps ++ (u, KSquareR) :: ts) ((t, KSquareL) :: ps ++ (u, KSquareR) :: ts')
| te_struct t pre u b b' v ts ts' : KCurlyL ∉ map snd pre -> fields b b' -> texpr ts ts' ->
    texpr ((t, KStruct) :: pre ++ (u, KCurlyL) :: b ++ (v, KCurlyR) :: ts) ((t, KStruct) :: pre ++ (u, KCurlyL) :: b' ++ (v, KCurlyR) :: ts')
| te_interface t pre u b b' v ts ts' : KCurlyL ∉ map snd pre -> methods b b' -> texpr ts ts' ->
    texpr ((t, KInterface) :: pre ++ (u, KCurlyL) :: b ++ (v, KCurlyR) :: ts) ((t, KInterface) :: pre ++ (u, KCurlyL) :: b' ++ (v, KCurlyR) :: ts')
(** A named type: all tokens up to a comment or the end of the line become one node. *)
| te_name n w cs u ts ts' : (forall x, x ∈ map snd w -> x ∉ [KNewLine; KComment; KParenL; KCurlyL; KFunc]) -> squares (map snd w) ->
    Forall (fun c => snd c = KComment) cs -> texpr ts ts' ->
    texpr ((n, KRaw) :: w ++ cs ++ (u, KNewLine) :: ts) (merged ((n, KRaw) :: w) :: cs ++ (u, KNewLine) :: ts')
(** [func(params)], and perhaps results. *)
| te_func t ps ps' r r' u ts ts' : parens KParamName KParamType ps ps' -> type_results r r' -> texpr ts ts' ->
    texpr ((t, KFunc) :: ps ++ r ++ (u, KNewLine) :: ts) ((t, KFunc) :: ps' ++ r' ++ (u, KNewLine) :: ts').

(** Type parameters *)
Inductive type_params : list lexeme -> Prop :=
| tp_none : type_params []
| tp_some t ps u : squares (map snd ps) -> type_params ((t, KSquareL) :: ps ++ [(u, KSquareR)]).
Inductive type_decl : list lexeme -> list lexeme -> Prop :=
(** [type Name[params] T] *)
| td_type t pre n ps s ts ts' : (forall x, x ∈ map snd pre -> x ∉ [KRaw; KCurlyR; KNewLine]) -> type_params ps -> texpr ts ts' ->
    type_decl ((t, KType) :: pre ++ (n, KRaw) :: ps ++ (s, KSpace) :: ts) ((t, KType) :: pre ++ (n, KTypeName) :: ps ++ (s, KSpace) :: ts')
(** [type (], a line of its own: nothing is refined. *)
| td_group t pre u ts : (forall x, x ∈ map snd pre -> x ∉ [KRaw; KCurlyR; KNewLine]) ->
    type_decl ((t, KType) :: pre ++ (u, KNewLine) :: ts) ((t, KType) :: pre ++ (u, KNewLine) :: ts).
