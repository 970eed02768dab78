(** Theorems about the kinds of refined type declarations: C55, C56, C57 *)
From Verif Require Import HeaderProofs SpecAst SpecText P_Lex P_Scope P_Ast P_Get P_Text TextProofs TypeText ResetSpec SpecKinds KindProofs KindCheck TypeKinds TypeCheck P_Kinds.

Lemma type_exact h1 gr C ts ts' : SpecNode.wf h1 -> chain h1 gr -> length gr = length ts -> Kc gr (length ts) C h1 -> map snd C = ts -> type_decl ts ts' ->
  wp (reset_kind (reset_fuel h1) (head gr)) (fun _ s => base h1 gr (s_heap s) /\ exists C', map snd C' = ts' /\ Kc gr (length ts) C' (s_heap s)) (mkSt h1 []).
Proof.
  intros W1 C1 Lg K1 Ec D. rewrite <- Lg in *.
  assert (Lf : 6 * length gr + 8 <= reset_fuel h1).
  { pose proof (NoDup_bound gr (length h1) (chain_NoDup h1 gr C1) (fun x Hx => valid_chain h1 gr x C1 Hx)). unfold reset_fuel. lia. }
  destruct C as [|c C]; [subst ts; inversion D|]. assert (Kk : knd c = KType) by (destruct D; cbn [map] in Ec; injection Ec as Ec _; by rewrite Ec).
  rewrite <- (kc_head _ _ _ _ K1). cbn [map head hd_error]. unfold reset_kind. apply wp_bind, wp_get_kind. cbn [s_heap].
  assert (K0 : Kc gr (length gr) ([] ++ c :: C) h1) by exact K1. rewrite (kc_at _ _ _ _ _ _ K0), Kk. kred. cbv iota.
  eapply wp_mono; [apply (type_walk h1 gr W1 C1 (reset_fuel h1) ts ts' (c :: C) (mkSt h1 []) D Ec); [by apply base_init|exact K1|lia]|].
  intros r s (B & C' & E & K). split; [done|]. by exists C'.
Qed.
(** What the theorems below have in common. *)
Lemma type_kinds : forall ord h startLine text h1 ls h' scs g gs i gr sc ts ts', any_order ord -> SpecNode.wf h ->
  tokenised ord h text h1 ls -> parse_scope ord h startLine text = Ok (h', scs) ->
  pieces h1 (startLine - 1) ls g gs -> gs !! i = Some gr -> scs !! i = Some sc ->
  map (shows h1) gr = ts -> type_decl ts ts' ->
  exists ns, scope_nodes h' sc ns /\ map (shows h') ns = ts'.
Proof.
  intros ord h n text h1 ls h' scs g gs i gr sc ts ts' O W Tk E HP Hg Hs Em D.
  destruct (parse_inv ord h n text h1 ls h' scs O W Tk E) as (h2 & g' & gs' & HP' & -> & W1 & W' & SP & Ll & T & Cg & Cgs & O2 & O3 & R3).
  destruct (pieces_det _ _ _ _ _ _ _ HP HP') as [<- <-].
  rewrite list_lookup_fmap in Hs. rewrite Hg in Hs. cbn [fmap option_fmap option_map] in Hs. injection Hs as <-.
  rewrite Forall_forall in R3. pose proof (R3 gr (elem_of_list_lookup_2 _ _ _ Hg)) as Rf.
  pose proof (pieces_nonempty _ _ _ _ _ HP) as NE. rewrite Forall_forall in NE. specialize (NE gr (elem_of_list_lookup_2 _ _ _ Hg)).
  assert (Sh : forall l, shows h2 l = shows h1 l) by (intros l; apply shows_ext; apply (proj2 SP (Some l))).
  destruct (exact_from h2 h' gr ts [] ts' Rf) as (ns & rest' & Cn & Hh & Es & Hr).
  - rewrite app_nil_r, <- Em. apply map_ext, Sh.
  - destruct D; done.
  - intros h3 C W3 C3 K3 Ec E3. apply (type_exact h3 gr C ts ts'); [done|done|by rewrite <- Em, map_length|done|done|done].
  - rewrite (Hr eq_refl), app_nil_r in Es. exists ns. split; [|done]. split; [by rewrite Hh; destruct gr|by exists []].
Qed.

(** ** C55 *)
Theorem C55_struct_kinds : forall ord h startLine text h1 ls h' scs g gs i gr sc t pre n ps s k mid o body body' c rest rest', any_order ord -> SpecNode.wf h ->
  tokenised ord h text h1 ls -> parse_scope ord h startLine text = Ok (h', scs) ->
  pieces h1 (startLine - 1) ls g gs -> gs !! i = Some gr -> scs !! i = Some sc ->
  (* type Name[params] struct { body } rest *)
  map (shows h1) gr = (t, KType) :: pre ++ (n, KRaw) :: ps ++ (s, KSpace) :: (k, KStruct) :: mid ++ (o, KCurlyL) :: body ++ (c, KCurlyR) :: rest ->
  (forall x, x ∈ map snd pre -> x ∉ [KRaw; KCurlyR; KNewLine]) -> type_params ps -> KCurlyL ∉ map snd mid ->
  fields body body' -> texpr rest rest' ->
  exists ns, scope_nodes h' sc ns /\
    map (shows h') ns = (t, KType) :: pre ++ (n, KTypeName) :: ps ++ (s, KSpace) :: (k, KStruct) :: mid ++ (o, KCurlyL) :: body' ++ (c, KCurlyR) :: rest'.
Proof.
  intros ord h startLine text h1 ls h' scs g gs i gr sc t pre n ps s k mid o body body' c rest rest' O W Tk E HP Hg Hs Em Hp Tp Nm F R.
  eapply (type_kinds ord h startLine text h1 ls); try done. constructor; [done|done|]. by apply te_struct.
Qed.

(** ** C56 *)
Theorem C56_interface_kinds : forall ord h startLine text h1 ls h' scs g gs i gr sc t pre n ps s k mid o body body' c rest rest', any_order ord -> SpecNode.wf h ->
  tokenised ord h text h1 ls -> parse_scope ord h startLine text = Ok (h', scs) ->
  pieces h1 (startLine - 1) ls g gs -> gs !! i = Some gr -> scs !! i = Some sc ->
  (* type Name[params] interface { body } rest *)
  map (shows h1) gr = (t, KType) :: pre ++ (n, KRaw) :: ps ++ (s, KSpace) :: (k, KInterface) :: mid ++ (o, KCurlyL) :: body ++ (c, KCurlyR) :: rest ->
  (forall x, x ∈ map snd pre -> x ∉ [KRaw; KCurlyR; KNewLine]) -> type_params ps -> KCurlyL ∉ map snd mid ->
  methods body body' -> texpr rest rest' ->
  exists ns, scope_nodes h' sc ns /\
    map (shows h') ns = (t, KType) :: pre ++ (n, KTypeName) :: ps ++ (s, KSpace) :: (k, KInterface) :: mid ++ (o, KCurlyL) :: body' ++ (c, KCurlyR) :: rest'.
Proof.
  intros ord h startLine text h1 ls h' scs g gs i gr sc t pre n ps s k mid o body body' c rest rest' O W Tk E HP Hg Hs Em Hp Tp Nm F R.
  eapply (type_kinds ord h startLine text h1 ls); try done. constructor; [done|done|]. by apply te_interface.
Qed.

(** ** C57 *)
Theorem C57_type_kinds : forall ord h startLine text h1 ls h' scs g gs i gr sc ts ts', any_order ord -> SpecNode.wf h ->
  tokenised ord h text h1 ls -> parse_scope ord h startLine text = Ok (h', scs) ->
  pieces h1 (startLine - 1) ls g gs -> gs !! i = Some gr -> scs !! i = Some sc ->
  map (shows h1) gr = ts -> type_decl ts ts' ->
  exists ns, scope_nodes h' sc ns /\ map (shows h') ns = ts'.
Proof. exact type_kinds. Qed.

(** Examples.  What is neither a name nor a type is left out of the lists. *)
Definition ex_ty : str := lines
  ["package a";
   "type S[T any] struct {"; " // c"; " A, B int `json:""x""`"; " *E"; " m map[K]V // c"; " f func(ctx context.Context, xs []T) error"; " g T"; "}";
   "type I interface {"; " Emb"; " pkg.Q"; " Run(ctx context.Context, a, b int) (v V, err error) // c"; " Get(K) *V"; "}";
   "type M pkg.List[Foo]";
   "type F func(a A, b int) (R, error)";
   "type ("; " X Y"; ")";
   "type N pkg.T // c";
   "type G func(a A) <-chan R // c"]%string.
Definition ex_ty_tokens : heap * list loc := match extract src_ord [] ex_ty with Ok (h, _) => (h, seq 0 (length h)) | _ => ([], []) end.
Definition ex_ty_pieces : list (list loc) := snd (cut_pieces (fst ex_ty_tokens) (-1) (snd ex_ty_tokens)).
Definition ex_ty_parse : heap * list scope := match parse_scope src_ord [] 0 ex_ty with Ok r => r | _ => ([], []) end.
Definition ids (ts : list (str * kind)) : list (str * kind) := filter (fun l => snd l ∈ [KTypeName; KFuncName; KParamName; KParamType; KRaw]) ts.
Lemma ex_ty_common : tokenised src_ord [] ex_ty (fst ex_ty_tokens) (snd ex_ty_tokens) /\ parse_scope src_ord [] 0 ex_ty = Ok ex_ty_parse /\
  pieces (fst ex_ty_tokens) (-1) (snd ex_ty_tokens) [] ex_ty_pieces.
Proof.
  split; [split; [vm_compute; reflexivity|]; apply seg_check_ok; vm_compute; reflexivity|]. split; [vm_compute; reflexivity|].
  apply (cut_pieces_ok (fst ex_ty_tokens) (-1) (snd ex_ty_tokens)).
Qed.
Definition ex_ty_at (i : nat) : list (str * kind) := match ex_ty_pieces !! i with Some gr => map (shows (fst ex_ty_tokens)) gr | None => [] end.
(** The hypotheses of C55, C56 and C57 *)
Definition unit_of (f : option (list (str * kind))) : list (str * kind) := default [] f.
Example ex_C55 : exists pre ps mid body body' rest rest' t n s k o c,
  ex_ty_at 1 = (t, KType) :: pre ++ (n, KRaw) :: ps ++ (s, KSpace) :: (k, KStruct) :: mid ++ (o, KCurlyL) :: body ++ (c, KCurlyR) :: rest /\
  (forall x, x ∈ map snd pre -> x ∉ [KRaw; KCurlyR; KNewLine]) /\ type_params ps /\ KCurlyL ∉ map snd mid /\ fields body body' /\ texpr rest rest' /\
  ids body' = [($"A", KParamName); ($"B", KParamName); ($"*E", KParamType); ($"m", KParamName); ($"K", KParamType); ($"V", KParamType);
    ($"f", KParamName); ($"ctx", KParamName); ($"context.Context", KParamType); ($"xs", KParamName); ($"T", KParamType); ($"error", KParamType);
    ($"g", KParamName); ($"T", KParamType)].
Proof.
  exists [($" ", KSpace)], ((($"[", KSquareL)) :: take 3 (drop 4 (ex_ty_at 1)) ++ [($"]", KSquareR)]), [($" ", KSpace)], (take 52 (drop 12 (ex_ty_at 1))), (unit_of (fields_fn 100 (take 52 (drop 12 (ex_ty_at 1))))),
    (drop 65 (ex_ty_at 1)), (drop 65 (ex_ty_at 1)), ($"type"), ($"S"), ($" "), ($"struct"), ($"{"), ($"}").
  split; [vm_compute; reflexivity|]. split. { intros x Hx. apply elem_of_list_singleton in Hx as ->. apply mem_kind_false; reflexivity. }
  split; [constructor; apply squares_fn_ok; vm_compute; reflexivity|]. split; [apply mem_kind_false; reflexivity|].
  split; [apply (fields_fn_ok 100); vm_compute; reflexivity|]. split; [apply (texpr_fn_ok 100); vm_compute; reflexivity|]. vm_compute. reflexivity.
Qed.
Example ex_C56 : exists pre mid body body' rest rest' t n s k o c,
  ex_ty_at 2 = (t, KType) :: pre ++ (n, KRaw) :: [] ++ (s, KSpace) :: (k, KInterface) :: mid ++ (o, KCurlyL) :: body ++ (c, KCurlyR) :: rest /\
  (forall x, x ∈ map snd pre -> x ∉ [KRaw; KCurlyR; KNewLine]) /\ type_params [] /\ KCurlyL ∉ map snd mid /\ methods body body' /\ texpr rest rest' /\
  ids body' = [($"Emb", KTypeName); ($"pkg.Q", KTypeName); ($"Run", KFuncName); ($"ctx", KParamName); ($"context.Context", KParamType); ($"a", KParamType); ($"b", KParamName);
    ($"v", KParamName); ($"V", KParamType); ($"err", KParamName); ($"error", KParamType); ($"Get", KFuncName); ($"K", KParamType); ($"*V", KParamType)].
Proof.
  set (b := take (length (ex_ty_at 2) - 9) (drop 7 (ex_ty_at 2))).
  exists [($" ", KSpace)], [($" ", KSpace)], b, (unit_of (methods_fn 100 b)),
    (drop (length (ex_ty_at 2) - 1) (ex_ty_at 2)), (drop (length (ex_ty_at 2) - 1) (ex_ty_at 2)), ($"type"), ($"I"), ($" "), ($"interface"), ($"{"), ($"}").
  split; [vm_compute; reflexivity|]. split. { intros x Hx. apply elem_of_list_singleton in Hx as ->. apply mem_kind_false; reflexivity. }
  split; [constructor|]. split; [apply mem_kind_false; reflexivity|].
  split; [apply (methods_fn_ok 100); vm_compute; reflexivity|]. split; [apply (texpr_fn_ok 100); vm_compute; reflexivity|]. vm_compute. reflexivity.
Qed.
Example ex_C57 :
  (exists ts', type_decl (ex_ty_at 3) ts' /\ ids ts' = [($"M", KTypeName); ($"pkg.List[Foo]", KParamType)]) /\
  (exists ts', type_decl (ex_ty_at 4) ts' /\ ids ts' = [($"F", KTypeName); ($"a", KParamName); ($"A", KParamType); ($"b", KParamName); ($"R", KParamType); ($"error", KParamType)]) /\
  type_decl (ex_ty_at 5) (ex_ty_at 5) /\ ids (ex_ty_at 5) = [($"X", KRaw); ($"Y", KRaw)] /\
  (exists ts', type_decl (ex_ty_at 6) ts' /\ drop 2 ts' = [($"N", KTypeName); ($" ", KSpace); ($"pkg.T ", KParamType); ($"// c", KComment); ([c_nl], KNewLine)]) /\
  (exists ts', type_decl (ex_ty_at 7) ts' /\ ids ts' = [($"G", KTypeName); ($"a", KParamName); ($"A", KParamType); ($"<-chan", KFuncName); ($"R", KParamType)]) /\
  Forall (fun i => ex_ty_at i <> []) [1; 2; 3; 4; 5; 6; 7].
Proof.
  split; [eexists; split; [apply (type_decl_fn_ok 100); vm_compute; reflexivity|vm_compute; reflexivity]|].
  split; [eexists; split; [apply (type_decl_fn_ok 100); vm_compute; reflexivity|vm_compute; reflexivity]|].
  split; [apply (type_decl_fn_ok 100); vm_compute; reflexivity|]. split; [vm_compute; reflexivity|].
  split; [eexists; split; [apply (type_decl_fn_ok 100); vm_compute; reflexivity|vm_compute; reflexivity]|].
  split; [eexists; split; [apply (type_decl_fn_ok 100); vm_compute; reflexivity|vm_compute; reflexivity]|].
  repeat constructor; vm_compute; discriminate.
Qed.

(** Quirks.  The fields of a struct written on one line are not told apart from
    their types, an embedded field with a comment after it is a name; the
    declarations of a group are not refined at all (C57, [type (]); the single
    named result of a function type is marked as the name of a function; of the
    methods of an interface written on one line only the first is found. *)
Theorem C55_one_line_refuted : ($"x", KParamType) ∈ shown (lines ["package a"; "type S struct {"; " s struct { x X }"; "}"])%string 1.
Proof. eapply bool_decide_unpack. vm_compute. exact I. Qed.
Theorem C55_embedded_comment_refuted : ($"E", KParamName) ∈ shown (lines ["package a"; "type S struct {"; " E // embedded"; "}"])%string 1.
Proof. eapply bool_decide_unpack. vm_compute. exact I. Qed.
Theorem C56_one_line_refuted : let ns := shown (lines ["package a"; "type I interface { Q(); R() }"])%string 1 in
  ($"Q", KFuncName) ∈ ns /\ ($"R", KFuncName) ∉ ns.
Proof. split; eapply bool_decide_unpack; vm_compute; exact I. Qed.
Theorem C56_union_refuted : let ns := shown (lines ["package a"; "type I interface {"; " A | B"; "}"])%string 1 in
  ($"A", KTypeName) ∈ ns /\ ($"B", KRaw) ∈ ns.
Proof. split; eapply bool_decide_unpack; vm_compute; exact I. Qed.
Theorem C57_single_result_refuted : ($"MyErr", KFuncName) ∈ shown (lines ["package a"; "type F func(a int) MyErr"])%string 1.
Proof. eapply bool_decide_unpack. vm_compute. exact I. Qed.
