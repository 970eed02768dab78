(** C39 and C49: what happens to the text of a file when it is parsed, and when
    the parsed file is saved. *)
From Verif Require Import HeaderProofs SpecAst SpecText P_Lex P_Scope P_Ast P_Get TextProofs TypeText ResetSpec.

Lemma kept_from h2 h' gr : refined_from h2 h' gr -> keeps (map (fun l => kind_of h2 (Some l)) gr) ->
  exists cur, chain h' cur /\ head cur = head gr /\ cur `sublist_of` gr /\ text_at h' cur = text_at h2 gr.
Proof.
  intros [(h1 & s & r & W1 & L1 & C1 & E1 & Er & B1 & Eg & Ll)] Hk.
  assert (Ek : map (fun l => kind_of h1 (Some l)) gr = map (fun l => kind_of h2 (Some l)) gr).
  { apply map_ext_in. intros l Hl. unfold kind_of. apply field_ext. apply E1. by apply elem_of_list_In. }
  assert (Lf : 8 * length gr + 8 <= reset_fuel h1).
  { pose proof (NoDup_bound gr (length h1) (chain_NoDup h1 gr C1) (fun x Hx => valid_chain h1 gr x C1 Hx)). unfold reset_fuel. lia. }
  pose proof (keeps_text h1 gr W1 C1 (reset_fuel h1) [] ltac:(by rewrite Ek) Lf) as R. unfold wp in R. rewrite Er in R. destruct R as [_ K].
  destruct (kt_chain _ _ _ K) as (cur & C & Hd & Sub & Tx & _). exists cur.
  split; [eapply chain_same_nodes; [exact Ll| |exact C]; intros l Hl; apply Eg; by eapply sublist_in|]. split; [done|]. split; [done|].
  transitivity (txt (s_heap s) cur).
  { apply txt_ext. intros l Hl. unfold text_of. apply field_ext. apply Eg. by eapply sublist_in. }
  rewrite Tx. apply txt_ext. intros l Hl. unfold text_of. apply field_ext. by rewrite E1.
Qed.

(** ** C39 *)
Theorem C39_text_kept : forall ord h startLine text h1 ls h' scs, any_order ord -> SpecNode.wf h ->
  tokenised ord h text h1 ls -> parse_scope ord h startLine text = Ok (h', scs) ->
  exists g gs, ls = g ++ concat gs /\
    Forall2 (fun sc gr => sc_node sc = head gr /\ gr <> [] /\
      (keeps (map (fun l => kind_of h1 (Some l)) gr) ->
       exists ns, chain h' ns /\ head ns = sc_node sc /\ ns `sublist_of` gr /\ text_at h' ns = text_at h1 gr)) scs gs.
Proof.
  intros ord h n text h1 ls h' scs O W Tk E.
  destruct (parse_inv ord h n text h1 ls h' scs O W Tk E) as (h2 & g & gs & HP & -> & W1 & W' & SP & Ll & T & Cg & Cgs & O2 & O3 & R3).
  exists g, gs. split; [by eapply pieces_concat|]. apply scopes_forall2.
  pose proof (pieces_nonempty _ _ _ _ _ HP) as NE. rewrite Forall_forall in *. intros gr Hg. specialize (NE gr Hg). specialize (R3 gr Hg).
  assert (Es : sc_node (scope_of h1 gr) = head gr) by (by destruct gr). split; [done|]. split; [done|].
  intros Hk. assert (Ek : map (fun l => kind_of h2 (Some l)) gr = map (fun l => kind_of h1 (Some l)) gr).
  { apply map_ext. intros l. apply (proj1 (proj2 (proj2 SP (Some l)))). }
  destruct (kept_from h2 h' gr R3) as (cur & C & Hd & Sub & Tx); [by rewrite Ek|]. exists cur.
  split; [done|]. split; [by rewrite Es|]. split; [done|]. rewrite Tx. apply txt_ext. intros l _. apply (proj2 (proj2 (proj2 SP (Some l)))).
Qed.

(** ** C49 *)
Lemma pieces_det h prev ls g gs g' gs' : pieces h prev ls g gs -> pieces h prev ls g' gs' -> g = g' /\ gs = gs'.
Proof.
  intros H. revert g' gs'. induction H as [prev|prev l ls g gs N H IH|prev l ls g gs N H IH]; intros g' gs' H'; inversion H'; subst; try done.
  - by destruct (IH _ _ ltac:(eassumption)) as [-> ->].
  - by destruct (IH _ _ ltac:(eassumption)) as [-> ->].
Qed.
Lemma text_at_app h xs ys : text_at h (xs ++ ys) = text_at h xs ++ text_at h ys.
Proof. apply txt_app. Qed.
Lemma text_at_concat h lss : text_at h (concat lss) = concat (map (text_at h) lss).
Proof. induction lss as [|ls lss IH]; [done|]. cbn [concat map]. by rewrite text_at_app, IH. Qed.
(** What a saved file would contain: everything from the first scope on. *)
Theorem C49_text_of_parsed : forall ord h startLine text h1 ls h' scs g gs, any_order ord -> SpecNode.wf h ->
  tokenised ord h text h1 ls -> parse_scope ord h startLine text = Ok (h', scs) ->
  pieces h1 (startLine - 1) ls g gs -> Forall (fun gr => keeps (map (fun l => kind_of h1 (Some l)) gr)) gs ->
  exists lss, all_nodes h' (map Some scs) lss /\ text = text_at h1 g ++ concat (map (text_at h') lss).
Proof.
  intros ord h n text h1 ls h' scs g gs O W Tk E HP Hk.
  destruct (parse_inv ord h n text h1 ls h' scs O W Tk E) as (h2 & g' & gs' & HP' & -> & W1 & W' & SP & Ll & T & Cg & Cgs & O2 & O3 & R3).
  destruct (pieces_det _ _ _ _ _ _ _ HP HP') as [<- <-]. destruct (C28_tokeniser_lossless ord h text h1 ls O W Tk) as [Et _].
  fold (text_at h1 ls) in Et. rewrite (pieces_concat _ _ _ _ _ HP), text_at_app, text_at_concat in Et.
  assert (G : exists lss, all_nodes h' (map Some (map (scope_of h1) gs)) lss /\ map (text_at h') lss = map (text_at h1) gs).
  { pose proof (pieces_nonempty _ _ _ _ _ HP) as NE. clear HP HP' Et Cgs O3 E. induction gs as [|gr gs IH]; [exists []; split; [constructor|done]|].
    inversion_clear Hk as [|? ? Hk1 Hk2]. inversion_clear R3 as [|? ? R1 R2]. inversion_clear NE as [|? ? N1 N2]. destruct (IH Hk2 R2 N2) as (lss & A & Em).
    destruct (kept_from h2 h' gr R1) as (cur & C & Hd & Sub & Tx).
    { erewrite map_ext; [exact Hk1|]. intros l. apply (proj1 (proj2 (proj2 SP (Some l)))). }
    exists (cur :: lss). cbn [map]. split.
    - constructor; [|done]. exists (scope_of h1 gr). split; [done|]. split; [rewrite Hd; by destruct gr|by exists []].
    - f_equal; [|done]. rewrite Tx. apply txt_ext. intros l _. apply (proj2 (proj2 (proj2 SP (Some l)))). }
  destruct G as (lss & A & Em). exists lss. split; [done|]. by rewrite Em.
Qed.
(** A file that begins with a scope, read and then saved under any name: the new
    file has the text that was read, up to formatting. *)
Theorem C49_parse_then_save : forall e f ord spare h m file path text h1 ls gs h2 m2 a file' path' autoImport states f' err,
  any_order ord -> SpecNode.wf h -> go_file file path -> go_file file' path' ->
  (* what the formatter makes of the content of the file *)
  (exists buf, f path = Some buf /\ en_format e buf = Some text) ->
  (* the file begins with a scope, and all of its scopes keep their text *)
  tokenised ord h text h1 ls -> pieces h1 (-1) ls [] gs -> Forall (fun gr => keeps (map (fun l => kind_of h1 (Some l)) gr)) gs ->
  (* the file is parsed, and saved *)
  parse_ast e f ord spare h m file = Ok (h2, m2, inl a) ->
  ast_save e f h2 m2 a file' autoImport = Ok (states, f', err) ->
  (err = None -> f' path' = Some (to_write e path' autoImport text)) /\
  (err = None -> autoImport = false -> en_format e text = Some text -> f' path' = Some text) /\
  (forall q, q <> path' -> f' q = f q).
Proof.
  intros e f ord spare h m file path text h1 ls gs h2 m2 a file' path' ai states f' err O W G G' (buf & Ef & Eb) Tk HP Hk Ep Es.
  pose proof (C48_parse_ast e f ord spare h m file path O W G) as H. rewrite Ef in H.
  destruct (if en_can_open e path then en_format e buf else None) as [t|] eqn:Eo; [|congruence].
  assert (t = text) as -> by (destruct (en_can_open e path); congruence).
  destruct H as (h3 & scs & E3 & [[_ H]|(_ & m3 & a3 & H & _ & _ & El & _)]); [congruence|].
  rewrite Ep in H. injection H as <- <- <-.
  destruct (C49_text_of_parsed ord h 0 text h1 ls h2 scs [] gs O W Tk E3 HP Hk) as (lss & A & Et). cbn [app text_at map concat] in Et.
  change (text_at h1 []) with (@nil ascii) in Et. cbn [app] in Et.
  destruct (C46_save e f h2 m2 a file' path' ai (map Some scs) lss El A G') as (st & fs2 & er & Es' & _ & _ & H1 & H2).
  rewrite <- Et in H1. rewrite Es in Es'. injection Es' as <- <- <-.
  split; [intros E; by apply H1|]. split; [|done]. intros E -> F. rewrite (proj2 (H1 E)). unfold to_write. by rewrite F.
Qed.

Lemma no_comment_before ok ks : KComment ∉ ks -> comments_before ok ks.
Proof. intros N xs k ys ->. exfalso. apply N. apply elem_of_app. right. by left. Qed.
Lemma pieces_begin h prev l ls : starts h prev l -> exists gs, pieces h prev (l :: ls) [] gs.
Proof. intros St. destruct (pieces_total h ls (line_of h (Some l))) as (g & gs & P). exists ((l :: g) :: gs). by constructor. Qed.
(** Without comments and without type declarations everything is kept: all
    functions, whatever they contain. *)
Theorem C49_no_types : forall e f ord spare h m file path text rest h1 ls h2 m2 a file' path' states f',
  any_order ord -> SpecNode.wf h -> go_file file path -> go_file file' path' ->
  (exists buf, f path = Some buf /\ en_format e buf = Some text) -> en_format e text = Some text ->
  text = $"package " ++ rest -> tokenised ord h text h1 ls ->
  (forall l, l ∈ ls -> kind_of h1 (Some l) <> KComment /\ kind_of h1 (Some l) <> KType) ->
  parse_ast e f ord spare h m file = Ok (h2, m2, inl a) ->
  ast_save e f h2 m2 a file' false = Ok (states, f', None) ->
  f' path' = Some text.
Proof.
  intros e f ord spare h m file path text rest h1 ls h2 m2 a file' path' states f' O W G G' Ef Fm -> Tk Hn Ep Es.
  destruct ls as [|l ls]. { exfalso. destruct (C28_tokeniser_lossless ord h _ h1 [] O W Tk) as [Et _]. done. }
  pose proof (tokenised_tokens ord h _ h1 _ O W Tk) as T.
  assert (T1 : token ($"package " ++ rest) $"package" KPackage (c_sp :: rest)).
  { change ($"package " ++ rest) with ($"package" ++ c_sp :: rest). apply kw_token; [apply plain_check; [done|reflexivity]|apply ends_sep, sep_in; reflexivity|reflexivity]. }
  destruct (scan_line 0 [] _ _ [($"package", KPackage)] (c_sp :: rest) T) as (ts' & Ets); [constructor|by apply lexes_one|constructor; [reflexivity|constructor]|].
  cbn [map app fst snd] in Ets. injection Ets as El Et Ek _.
  destruct (pieces_begin h1 (-1) l ls) as (gs & HP).
  { split; [rewrite El; lia|]. exists $"package". rewrite Et. split; [by left|done]. }
  refine (proj1 (proj2 (C49_parse_then_save e f ord spare h m file path _ h1 _ gs h2 m2 a file' path' false states f' None O W G G' Ef Tk HP _ Ep Es)) eq_refl eq_refl Fm).
  rewrite Forall_forall. intros gr Hg.
  assert (Sub : forall k, k ∈ map (fun l => kind_of h1 (Some l)) gr -> k <> KComment /\ k <> KType).
  { intros k Hk. apply elem_of_list_fmap in Hk as (x & -> & Hx). apply Hn. rewrite (pieces_concat _ _ _ _ _ HP). cbn [app]. apply elem_of_list_In, in_concat. exists gr. split; by apply elem_of_list_In. }
  destruct (map _ gr) as [|k ks]; [by apply kp_other|]. destruct (kind_eqb k KFunc) eqn:E.
  - apply kind_eqb_true in E as ->. apply kp_func, no_comment_before. intros B. by destruct (Sub KComment B).
  - apply kp_other; cbn; intros [= ->]; [done|]. by destruct (Sub KType ltac:(left)).
Qed.

(** Examples: checking [keeps] on literals. *)
Fixpoint comments_check (ok ks : list kind) : bool :=
  match ks with
  | [] => true
  | k :: ks' => (negb (kind_eqb k KComment) || match ks' with [] => true | k' :: _ => mem_kind k' ok end) && comments_check ok ks'
  end.
Lemma comments_check_ok ok ks : comments_check ok ks = true -> comments_before ok ks.
Proof.
  induction ks as [|a ks IH]; intros H xs k ys E; [by destruct xs|]. cbn [comments_check] in H. apply andb_true_iff in H as [H1 H2].
  destruct xs as [|x xs]; cbn [app] in E; injection E as -> ->; [|by eapply (IH H2)].
  apply orb_true_iff in H1 as [H1|H1]; [|by apply mem_kind_true]. apply negb_true_iff, kind_eqb_false in H1. done.
Qed.
Lemma simple_check ks : mem_kind KParenL ks = false -> mem_kind KFunc ks = false -> comments_check [KNewLine] ks = true -> simple ks.
Proof. intros H1 H2 H3. split; [by apply mem_kind_false|]. split; [by apply mem_kind_false|by apply comments_check_ok]. Qed.
Lemma simple_suffix xs ys : simple (xs ++ ys) -> simple ys.
Proof.
  intros (H1 & H2 & H3). split; [intros H; apply H1, elem_of_app; by right|]. split; [intros H; apply H2, elem_of_app; by right|].
  intros us k vs ->. apply (H3 (xs ++ us) k vs). by rewrite <- app_assoc.
Qed.
Lemma after_first K us ys : mem_kind K us = false -> simple ys -> forall xs zs, us ++ K :: ys = xs ++ K :: zs -> simple zs.
Proof.
  intros N%mem_kind_false S0 xs zs E. revert us N E. induction xs as [|x xs IH]; intros us N E.
  - destruct us as [|u us]; cbn [app] in E; [injection E as E2; by subst|injection E as E1 E2]. destruct N. subst. by left.
  - destruct us as [|u us]; cbn [app] in E; injection E as E1 E2.
    + subst ys. apply (simple_suffix (xs ++ [K])). by rewrite <- app_assoc.
    + apply (IH us); [|done]. intros H. apply N. by right.
Qed.

Fixpoint cut_pieces (h : heap) (prev : Z) (ls : list loc) : list loc * list (list loc) :=
  match ls with
  | [] => ([], [])
  | l :: ls' =>
    let '(g, gs) := cut_pieces h (line_of h (Some l)) ls' in
    if negb (bool_decide (line_of h (Some l) = prev)) && existsb (fun k => bool_decide (k `prefix_of` text_of h (Some l))) scope_keywords
    then ([], (l :: g) :: gs) else (l :: g, gs)
  end.
Lemma cut_pieces_ok h prev ls : pieces h prev ls (fst (cut_pieces h prev ls)) (snd (cut_pieces h prev ls)).
Proof.
  revert prev. induction ls as [|l ls IH]; intros prev; [constructor|]. cbn [cut_pieces]. specialize (IH (line_of h (Some l))).
  destruct (cut_pieces h (line_of h (Some l)) ls) as [g gs]. cbn [fst snd] in IH. destruct (_ && _) eqn:E; cbn [fst snd].
  - constructor; [|done]. apply andb_true_iff in E as [E1 E2]. apply negb_true_iff, bool_decide_eq_false in E1. split; [done|].
    apply existsb_exists in E2 as (k & Hk & E2). exists k. split; [by apply elem_of_list_In|]. by apply bool_decide_eq_true in E2.
  - constructor; [|done]. intros [N (k & Hk & P)]. apply andb_false_iff in E as [E|E].
    + apply negb_false_iff, bool_decide_eq_true in E. done.
    + rewrite <- not_true_iff_false, existsb_exists in E. apply E. exists k. split; [by apply elem_of_list_In|by apply bool_decide_eq_true].
Qed.
Definition lines (l : list string) : str := concat (map (fun s => $s ++ [c_nl]) l).
Definition ex_go : str := lines
  ["package a"; "var v = []int{1, 2}";
   "func (r *R[T]) f(x /* hi */ int, y, z []int) (a map[string]int, err error) {"; " return func() a {}(), nil // done"; "}";
   "type S[T map[string]int] struct {"; " a, b int // x"; " m map[string]func(int) int"; "}";
   "type I interface {"; " M(a int) (b string)"; " N()"; "}";
   "type F func(a int) error"; "type M map[string]struct{}"; "type ("; " A = func()"; ")"]%string.
Definition ex_go_tokens : heap * list loc := match extract src_ord [] ex_go with Ok (h, _) => (h, seq 0 (length h)) | _ => ([], []) end.
Definition ex_go_pieces : list (list loc) := snd (cut_pieces (fst ex_go_tokens) (-1) (snd ex_go_tokens)).

Fixpoint break_kind (K : kind) (ks : list kind) : list kind * list kind :=
  match ks with [] => ([], []) | k :: r => if kind_eqb k K then ([], r) else let '(a, b) := break_kind K r in (k :: a, b) end.
Lemma break_kind_ok K ks : mem_kind K ks = true -> ks = fst (break_kind K ks) ++ K :: snd (break_kind K ks) /\ mem_kind K (fst (break_kind K ks)) = false.
Proof.
  intros H%mem_kind_true. induction ks as [|k ks IH]; [by apply elem_of_nil in H|]. cbn [break_kind]. destruct (kind_eqb k K) eqn:E.
  - apply kind_eqb_true in E as ->. done.
  - apply kind_eqb_false in E. apply elem_of_cons in H as [->|H]; [done|]. destruct (IH H) as [E1 E2]. destruct (break_kind K ks) as [a b]. cbn [fst snd] in *.
    split; [by rewrite E1 at 1|]. apply mem_kind_false. apply mem_kind_false in E2. intros [->|F]%elem_of_cons; done.
Qed.
Lemma first_after K body : mem_kind K body = true -> simple (snd (break_kind K body)) -> forall xs ys, body = xs ++ K :: ys -> simple ys.
Proof. intros H S0 xs ys E. destruct (break_kind_ok K body H) as [E1 E2]. rewrite E1 in E. by eapply after_first. Qed.
Lemma mapped_forall {A B} (P : B -> Prop) (f : A -> B) xs : Forall P (map f xs) -> Forall (fun x => P (f x)) xs.
Proof. induction xs; cbn [map]; [constructor|]. inversion 1; subst. constructor; auto. Qed.
(** all kinds of declarations at once *)
Example ex_C39_keeps : Forall (fun gr => keeps (map (fun l => kind_of (fst ex_go_tokens) (Some l)) gr)) ex_go_pieces.
Proof.
  apply (mapped_forall keeps (map (fun l => kind_of (fst ex_go_tokens) (Some l)))). vm_compute.
  constructor; [apply kp_other; intros H; vm_compute in H; discriminate H|].
  constructor; [apply kp_other; intros H; vm_compute in H; discriminate H|].
  constructor; [apply kp_func, comments_check_ok; reflexivity|].
  constructor.
  { eapply kp_struct; [right; eexists [_; _; _; _; _; _; _]; split; [|reflexivity]| |].
    - do 3 (apply sq_other; [done..|]). apply (sq_pair [_] [_]); [|]; (apply sq_other; [done..|]); constructor.
    - apply comments_check_ok. reflexivity.
    - intros xs ys E _. revert xs ys E. apply (first_after KCurlyR); [reflexivity|]. apply simple_check; reflexivity. }
  constructor.
  { eapply kp_interface; [left; reflexivity|apply comments_check_ok; reflexivity|]. apply (first_after KCurlyR); [reflexivity|]. apply simple_check; reflexivity. }
  constructor.
  { eapply kp_functype; [left; reflexivity|apply comments_check_ok; reflexivity|]. apply (first_after KNewLine); [reflexivity|]. apply simple_check; reflexivity. }
  constructor; [apply kp_plain, simple_check; reflexivity|].
  constructor; [|constructor]. apply (kp_group [_; _] KNewLine); [|by left]. apply mem_kind_false. reflexivity.
Qed.
Fixpoint seg_check (h : heap) (p : ptr) (ls : list loc) (q : ptr) : bool :=
  match ls with
  | [] => true
  | l :: r => Nat.ltb l (length h) && bool_decide (prev_of h (Some l) = p) && bool_decide (next_of h (Some l) = match r with [] => q | m :: _ => Some m end) && seg_check h (Some l) r q
  end.
Lemma seg_check_ok h p ls q : seg_check h p ls q = true -> seg h p ls q.
Proof.
  revert p. induction ls as [|l r IH]; intros p H; [done|]. cbn [seg_check] in H. rewrite !andb_true_iff, !bool_decide_eq_true in H.
  destruct H as [[[H1 H2] H3] H4]. cbn [seg]. split_and!; [by apply Nat.ltb_lt|done|done|by apply IH].
Qed.
Example ex_C39 : tokenised src_ord [] ex_go (fst ex_go_tokens) (snd ex_go_tokens) /\
  pieces (fst ex_go_tokens) (-1) (snd ex_go_tokens) [] ex_go_pieces /\ length ex_go_pieces = 8.
Proof.
  split; [|split; [apply (cut_pieces_ok (fst ex_go_tokens) (-1) (snd ex_go_tokens))|vm_compute; reflexivity]].
  split; [vm_compute; reflexivity|]. apply seg_check_ok. vm_compute. reflexivity.
Qed.
Definition ex_go_fs : fs := fun q => if bool_decide (q = $"x.go") then Some ex_go else None.
Example ex_C49 : match parse_ast ex_env ex_go_fs src_ord 3 [] [] $"x" with
  | Ok (h, m, inl a) => match ast_save ex_env ex_go_fs h m a $"y" false with
      | Ok (states, f', err) => err = None /\ f' $"y.go" = Some ex_go
      | _ => False end
  | _ => False end.
Proof. vm_compute. repeat split. Qed.

(** Without the conditions of [keeps] text is lost or repeated: the natural
    claim that saving a parsed file writes its text fails. *)
Definition saved (text : str) : option str :=
  match parse_scope src_ord [] 0 text with
  | Ok (h, scs) => match save_text h (map Some scs) with Ok t => Some t | _ => None end
  | _ => None
  end.
Theorem C49_unconditional_refuted :
  saved (lines ["package a"; "type X *func(a int)"])%string = Some (lines ["package a"; "type X *func(a int) int)"])%string /\
  saved (lines ["package a"; "type A B /* c */ /* d */"])%string = Some (lines ["package a"; "type A B  /* d */"])%string /\
  saved (lines ["package a"; "func f() a/*c*/b {"; "}"])%string = Some (lines ["package a"; "func f() ab {"; "}"])%string.
Proof. vm_compute. repeat split. Qed.
