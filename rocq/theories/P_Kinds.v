(** Theorems about the kinds of refined declarations: C54 *)
From Verif Require Import HeaderProofs SpecAst SpecText P_Lex P_Scope P_Ast P_Get P_Text TextProofs TypeText ResetSpec SpecKinds KindProofs KindCheck.

Lemma shows_ext h h' l : text_of h (Some l) = text_of h' (Some l) -> kind_of h (Some l) = kind_of h' (Some l) -> shows h l = shows h' l.
Proof. unfold shows. by intros -> ->. Qed.
(** The beginning of a scope as cells. *)
Lemma kc_init h gr hd rest : chain h gr -> map (shows h) gr = hd ++ rest -> hd <> [] ->
  exists C, map snd C = hd /\ Kc gr (length hd) C h.
Proof.
  intros Ch E Nh. apply map_eq_app in E as (xs & ys & -> & <- & _). exists (map (fun l => (l, shows h l)) xs).
  assert (Ef : map fst (map (fun l => (l, shows h l)) xs) = xs) by (rewrite map_map; cbn; apply map_id).
  split; [by rewrite map_map|]. rewrite map_length. constructor.
  - apply Forall_map, Forall_forall. intros x _. done.
  - intros A c d B Ec. assert (Ex : xs = map fst A ++ fst c :: fst d :: map fst B) by (rewrite <- Ef, Ec, map_app; done).
    rewrite Ex, <- !app_assoc in Ch. cbn [app] in Ch. by rewrite (chain_next h _ _ _ Ch).
  - apply Forall_map, Forall_forall. intros x Hx. apply elem_of_list_lookup in Hx as (i & Ei). exists i. cbn [fst].
    split; [by eapply lookup_lt_Some|]. rewrite lookup_app_l; [done|by eapply lookup_lt_Some].
  - destruct xs as [|x xs _] using rev_ind; [done|]. exists (x, shows h x), (length xs). rewrite map_app, app_length. cbn [map fst length]. rewrite last_snoc.
    split; [done|]. split; [|lia]. rewrite <- app_assoc. cbn [app]. rewrite lookup_app_r by lia. by rewrite Nat.sub_diag.
  - rewrite Ef. destruct xs; [done|]. done.
Qed.
Lemma exact_from h2 h' gr hd rest hd' : refined_from h2 h' gr -> map (shows h2) gr = hd ++ rest -> hd <> [] ->
  (forall h1 C, SpecNode.wf h1 -> chain h1 gr -> Kc gr (length hd) C h1 -> map snd C = hd -> map (shows h1) gr = hd ++ rest ->
     wp (reset_kind (reset_fuel h1) (head gr)) (fun _ s => base h1 gr (s_heap s) /\ exists C', map snd C' = hd' /\ Kc gr (length hd) C' (s_heap s)) (mkSt h1 [])) ->
  exists ns rest', chain h' ns /\ head ns = head gr /\ map (shows h') ns = hd' ++ rest' /\ (rest = [] -> rest' = []).
Proof.
  intros [(h1 & s & r & W1 & L1 & C1 & E1 & Er & B1 & Eg & Ll)] E Nh H.
  assert (E2 : map (shows h1) gr = hd ++ rest).
  { rewrite <- E. apply map_ext_in. intros l Hl. apply shows_ext; apply field_ext, E1; by apply elem_of_list_In. }
  destruct (kc_init h1 gr hd rest C1 E2 Nh) as (C & Ec & K1). specialize (H h1 C W1 C1 K1 Ec E2). unfold wp in H. rewrite Er in H.
  destruct H as (_ & C' & Ec' & K').
  destruct (kc_chain h1 gr W1 C1 _ _ _ B1 K') as (tl & Ct). destruct (base_chain h1 gr W1 C1 _ B1) as (cur & Cc & Sub & Hd).
  assert (Hh : head (map fst C' ++ tl) = head gr).
  { rewrite <- (kc_head _ _ _ _ K'). destruct C' as [|c C']; [|done]. destruct (kc_last _ _ _ _ K') as (c & i & Q & _). done. }
  assert (Eq : map fst C' ++ tl = cur) by (assert (Ne : map fst C' ++ tl <> []) by (destruct C' as [|c C']; [destruct (kc_last _ _ _ _ K') as (c & i & Q & _); done|done]); destruct (map fst C' ++ tl) as [|x xs]; [done|]; destruct cur as [|y ys]; [by rewrite <- Hd in Hh|]; rewrite <- Hd in Hh; injection Hh as ->; by eapply (chain_unique _ _ _ y); [exact Ct|exact Cc|left|left]).
  exists (map fst C' ++ tl), (map (shows h') tl). 
  assert (In : forall l, l ∈ map fst C' ++ tl -> l ∈ gr) by (intros l Hl; rewrite Eq in Hl; by eapply sublist_in).
  split; [eapply chain_same_nodes; [exact Ll| |exact Ct]; intros l Hl; by apply Eg, In|]. split; [done|]. split.
  - rewrite map_app. f_equal. rewrite <- Ec', map_map. apply map_ext_in. intros c Hc.
    pose proof (kc_show _ _ _ _ _ K' (proj2 (elem_of_list_In _ _) Hc)) as Sc. rewrite <- Sc.
    apply shows_ext; apply field_ext, Eg, In, elem_of_app; left; apply elem_of_list_In, in_map, Hc.
  - intros ->. rewrite app_nil_r in *. destruct tl as [|x tl]; [done|]. exfalso.
    pose proof (cursor_tail h1 gr _ _ _ B1 K') as F.
    destruct (kc_last _ _ _ _ K') as (c & i & Lc & Ei & Elo). unfold cursor in F. rewrite Lc in F.
    apply last_Some in Lc as (C0 & ->). rewrite map_app in Ct. cbn [map] in Ct. rewrite <- app_assoc in Ct. cbn [app] in Ct.
    rewrite (chain_next _ _ _ _ Ct) in F. cbn [head hd_error] in F. destruct F as (j & Lj & Ej). apply lookup_lt_Some in Ej.
    assert (length gr = length hd) by (rewrite <- E2; by rewrite map_length). lia.
Qed.
Lemma map_eq_snd {A B} (C : list (A * B)) xs ys : map snd C = xs ++ ys -> exists X Y, C = X ++ Y /\ map snd X = xs /\ map snd Y = ys.
Proof. intros E. apply map_eq_app in E as (X & Y & -> & E1 & E2). by exists X, Y. Qed.
Lemma func_exact h1 gr C hd hd' : SpecNode.wf h1 -> chain h1 gr -> Kc gr (length hd) C h1 -> map snd C = hd ->
  func_decl (map (fun l => kind_of h1 (Some l)) gr) hd hd' ->
  wp (reset_kind (reset_fuel h1) (head gr)) (fun _ s => base h1 gr (s_heap s) /\ exists C', map snd C' = hd' /\ Kc gr (length hd) C' (s_heap s)) (mkSt h1 []).
Proof.
  intros W1 C1 K1 Ec D. set (lo := length hd) in *. assert (Ls : length C <= length gr) by (eapply kc_size; [done|done|by apply base_init|exact K1]).
  assert (Ecl : length hd = length C) by (rewrite <- Ec; apply map_length).
  pose proof (fuel_enough h1 gr C1) as Lf. assert (Lf' : 8 * length gr + 8 <= reset_fuel h1).
  { pose proof (NoDup_bound gr (length h1) (chain_NoDup h1 gr C1) (fun x Hx => valid_chain h1 gr x C1 Hx)). unfold reset_fuel. lia. }
  assert (Run : forall fc sp S E t, C = [fc; sp] ++ S ++ E -> knd fc = KFunc -> hd' = map snd [fc; sp] ++ t ++ map snd E -> 3 <= length C ->
    wp (func_run (reset_fuel h1) ff_l (Some (fst fc)) []) (fun _ => finished h1 gr lo [fc; sp] t E) (mkSt h1 []) ->
    wp (reset_kind (reset_fuel h1) (head gr)) (fun _ s => base h1 gr (s_heap s) /\ exists C', map snd C' = hd' /\ Kc gr lo C' (s_heap s)) (mkSt h1 [])).
  { intros fc sp S E t -> Kf -> _ H. rewrite <- (kc_head _ _ _ _ K1). cbn [map app head hd_error].
    unfold reset_kind. apply wp_bind, wp_get_kind. cbn [s_heap].
    assert (K0 : Kc gr lo ([] ++ fc :: sp :: S ++ E) h1) by done. rewrite (kc_at _ _ _ _ _ _ K0), Kf. kred. cbv iota.
    eapply wp_mono; [exact H|]. intros r s (B & S' & <- & K'). split; [done|]. exists ([fc; sp] ++ S' ++ E). by rewrite !map_app. }
  destruct D as [f s ts ts' e Sg He|f s r r' s2 ts ts' e Nc Nf P Sg He].
  - destruct C as [|fc [|sp C]]; [done|done|]. cbn [map] in Ec. injection Ec as Ef Es Ec. apply map_eq_snd in Ec as (S & E & -> & E1 & E2).
    assert (3 <= length (fc :: sp :: S ++ E)).
    { cbn [length]. rewrite app_length. destruct Sg; (destruct S as [|? S]; [done|]); cbn [length]; lia. }
    apply (Run fc sp S E ts'); [done|by rewrite Ef|by cbn [map app]; rewrite Ef, Es, E2|done|].
    apply (func_decl_run h1 gr W1 C1 lo fc sp S E ts); [done|by rewrite E2|done|by rewrite Ef|by rewrite Es|by apply base_init|exact K1|lia].
  - destruct C as [|fc [|sp C]]; [done|done|]. cbn [map] in Ec. injection Ec as Ef Es Ec.
    assert (Ex : map snd C = (r ++ (s2, KSpace) :: ts) ++ e) by (rewrite Ec, <- app_assoc; done). clear Ec.
    apply map_eq_snd in Ex as (S & E & -> & E1 & E2).
    assert (3 <= length (fc :: sp :: S ++ E)).
    { cbn [length]. rewrite app_length. apply (f_equal length) in E1. rewrite map_length, app_length in E1. cbn [length] in E1. lia. }
    apply (Run fc sp S E (r' ++ (s2, KSpace) :: ts')); [done|by rewrite Ef|by cbn [map app]; rewrite Ef, Es, E2, <- !app_assoc|done|].
    pose proof (kc_head _ _ _ _ K1) as Hh. cbn [map app head hd_error] in Hh.
    apply (method_decl_run h1 gr W1 C1 lo fc sp S E r r' s2 ts ts' _ _ gr); [done|done|done|by rewrite E2|done|by rewrite Ef|by rewrite Es|by apply base_init|exact K1|lia| |done].
    destruct gr as [|x gr]; [done|]. injection Hh as ->. cbn [s_heap]. by apply chain_nseg.
Qed.

(** ** C54 *)
Theorem C54_function_kinds : forall ord h startLine text h1 ls h' scs g gs i gr sc hd rest hd', any_order ord -> SpecNode.wf h ->
  tokenised ord h text h1 ls -> parse_scope ord h startLine text = Ok (h', scs) ->
  (* the tokens of the scope, and the declaration they begin with *)
  pieces h1 (startLine - 1) ls g gs -> gs !! i = Some gr -> scs !! i = Some sc ->
  map (shows h1) gr = hd ++ rest -> func_decl (map (fun l => kind_of h1 (Some l)) gr) hd hd' ->
  exists ns rest', scope_nodes h' sc ns /\ map (shows h') ns = hd' ++ rest' /\ (rest = [] -> rest' = []).
Proof.
  intros ord h n text h1 ls h' scs g gs i gr sc hd rest hd' O W Tk E HP Hg Hs Em D.
  destruct (parse_inv ord h n text h1 ls h' scs O W Tk E) as (h2 & g' & gs' & HP' & -> & W1 & W' & SP & Ll & T & Cg & Cgs & O2 & O3 & R3).
  destruct (pieces_det _ _ _ _ _ _ _ HP HP') as [<- <-].
  rewrite list_lookup_fmap in Hs. rewrite Hg in Hs. cbn [fmap option_fmap option_map] in Hs. injection Hs as <-.
  rewrite Forall_forall in R3. pose proof (R3 gr (elem_of_list_lookup_2 _ _ _ Hg)) as Rf.
  pose proof (pieces_nonempty _ _ _ _ _ HP) as NE. rewrite Forall_forall in NE. specialize (NE gr (elem_of_list_lookup_2 _ _ _ Hg)).
  assert (Sh : forall l, shows h2 l = shows h1 l) by (intros l; apply shows_ext; apply (proj2 SP (Some l))).
  assert (Ek : map (fun l => kind_of h2 (Some l)) gr = map (fun l => kind_of h1 (Some l)) gr) by (apply map_ext; intros l; apply (proj2 SP (Some l))).
  destruct (exact_from h2 h' gr hd rest hd' Rf) as (ns & rest' & Cn & Hh & Es & Hr).
  - rewrite <- Em. apply map_ext, Sh.
  - destruct D; done.
  - intros h3 C W3 C3 K3 Ec E3. apply (func_exact h3 gr C hd hd'); [done|done|done|done|].
    replace (map (fun l => kind_of h3 (Some l)) gr) with (map (fun l => kind_of h1 (Some l)) gr); [done|].
    assert (Q : map snd (map (shows h3) gr) = map snd (map (shows h1) gr)) by (by rewrite E3, Em). rewrite !map_map in Q. cbn [shows snd] in Q. by symmetry.
  - exists ns, rest'. split; [|done]. split; [by rewrite Hh; destruct gr|by exists []].
Qed.

(** Examples: a function and a method, whole. *)
Definition ex_fn : str := lines
  ["package a";
   "func (r *R[T]) Get(ctx context.Context, f func(a int, string) bool, xs ...T) (v map[string]T, err error) {"; " return f(1, func() {}), nil"; "}";
   "func Two[K any](K, a, b string) *pkg.T {"; "}";
   "func three(x X) Y // in assembly"; "func four(x X) { return } // done"]%string.
Definition ex_fn_tokens : heap * list loc := match extract src_ord [] ex_fn with Ok (h, _) => (h, seq 0 (length h)) | _ => ([], []) end.
Definition ex_fn_pieces : list (list loc) := snd (cut_pieces (fst ex_fn_tokens) (-1) (snd ex_fn_tokens)).
Definition ex_fn_parse : heap * list scope := match parse_scope src_ord [] 0 ex_fn with Ok r => r | _ => ([], []) end.
Definition ex_two : list (str * kind) :=
  [($"func", KFunc); ($" ", KSpace); ($"Two", KFuncName); ($"[", KSquareL); ($"K", KRaw); ($" ", KSpace); ($"any", KRaw); ($"]", KSquareR);
   ($"(", KParenL); ($"K", KParamType); ($",", KComma); ($" ", KSpace); ($"a", KParamType); ($",", KComma); ($" ", KSpace); ($"b", KParamName); ($" ", KSpace); ($"string", KBasic); ($")", KParenR);
   ($" ", KSpace); ($"*pkg.T", KParamType); ($" ", KSpace); ($"{", KCurlyL); ([c_nl], KNewLine); ($"}", KCurlyR); ([c_nl], KNewLine)].
Example ex_C54 : tokenised src_ord [] ex_fn (fst ex_fn_tokens) (snd ex_fn_tokens) /\
  parse_scope src_ord [] 0 ex_fn = Ok ex_fn_parse /\
  pieces (fst ex_fn_tokens) (-1) (snd ex_fn_tokens) [] ex_fn_pieces /\
  (exists gr, ex_fn_pieces !! 2 = Some gr /\ func_decl (map (fun l => kind_of (fst ex_fn_tokens) (Some l)) gr) (map (shows (fst ex_fn_tokens)) gr) ex_two) /\
  (exists gr hd', ex_fn_pieces !! 1 = Some gr /\ func_decl (map (fun l => kind_of (fst ex_fn_tokens) (Some l)) gr) (map (shows (fst ex_fn_tokens)) gr) hd' /\
     take 9 hd' = [($"func", KFunc); ($" ", KSpace); ($"(", KParenL); ($"r", KMethodReceiverName); ($" ", KSpace); ($"*R", KMethodReceiverType); ($"[", KSquareL); ($"T", KRaw); ($"]", KSquareR)]) /\
  (exists gr hd', ex_fn_pieces !! 3 = Some gr /\ func_decl (map (fun l => kind_of (fst ex_fn_tokens) (Some l)) gr) (map (shows (fst ex_fn_tokens)) gr) hd' /\
     drop 2 hd' = [($"three", KFuncName); ($"(", KParenL); ($"x", KParamName); ($" ", KSpace); ($"X", KParamType); ($")", KParenR); ($" ", KSpace); ($"Y", KParamType); ($" ", KSpace); ($"// in assembly", KComment); ([c_nl], KNewLine)]) /\
  (exists gr hd', ex_fn_pieces !! 4 = Some gr /\ func_decl (map (fun l => kind_of (fst ex_fn_tokens) (Some l)) gr) (map (shows (fst ex_fn_tokens)) gr) hd' /\
     take 6 (drop 2 hd') = [($"four", KFuncName); ($"(", KParenL); ($"x", KParamName); ($" ", KSpace); ($"X", KParamType); ($")", KParenR)]).
Proof.
  split; [split; [vm_compute; reflexivity|]; apply seg_check_ok; vm_compute; reflexivity|].
  split; [vm_compute; reflexivity|].
  split; [apply (cut_pieces_ok (fst ex_fn_tokens) (-1) (snd ex_fn_tokens))|].
  assert (Ek : forall h gr, map (fun l => kind_of h (Some l)) gr = map snd (map (shows h) gr)) by (intros; by rewrite map_map).
  split; [eexists; split; [vm_compute; reflexivity|]; rewrite Ek; apply (func_decl_ok 100); vm_compute; reflexivity|].
  repeat split; (eexists _, _; split; [vm_compute; reflexivity|]; split; [rewrite Ek; apply (func_decl_ok 100); vm_compute; reflexivity|]; vm_compute; reflexivity).
Qed.

(** Quirks.  A single identifier may be a type and yet be marked as a name, if it
    has two type arguments; and what follows a parameter of a function type
    with several results is not refined. *)
Definition shown (text : str) (i : nat) : list (str * kind) :=
  match parse_scope src_ord [] 0 text with
  | Ok (h, scs) => match scs !! i with Some sc => map (shows h) (follow (S (length h)) (fun l => next_of h (Some l)) (sc_node sc)) | None => [] end
  | _ => []
  end.

Theorem C54_single_identifier_refuted : ($"Map", KParamName) ∈ shown (lines ["package a"; "func f(Map[K, V]) {"; "}"])%string 1.
Proof. eapply bool_decide_unpack. vm_compute. exact I. Qed.
Theorem C54_function_parameter_refuted :
  ($"T)", KParamType) ∈ shown (lines ["package a"; "func f(g func(int) (int, error), b T) {"; "}"])%string 1 /\
  ($"b", KParamType) ∈ shown (lines ["package a"; "func f(g func(int) (int, error), b T) {"; "}"])%string 1.
Proof. split; eapply bool_decide_unpack; vm_compute; exact I. Qed.
