(** C59 and C60: a parse depends on the text alone, scopes are refined
    independently of each other, and a file can be parsed piece by piece. *)
From Verif Require Import SpecLocal LexSpecProofs LocalLex Reset ResetSpec Local LocalCanon LocalProofs P_Lex P_Scope.

(** ** C59 *)
Theorem C59_parse_total : forall ord h startLine text, any_order ord -> SpecNode.wf h -> exists vs, parses_to ord h startLine text vs.
Proof. exact parses_total. Qed.
(** What ParseScope returns depends neither on the order in which Go goes through
    its tables nor on the nodes that exist already. *)
Theorem C59_text_determines : forall ord h ord' h' startLine text vs vs', any_order ord -> SpecNode.wf h -> any_order ord' -> SpecNode.wf h' ->
  parses_to ord h startLine text vs -> parses_to ord' h' startLine text vs' -> vs = vs'.
Proof. exact parses_unique. Qed.

(** The [i]-th scope of a parse: its tokens [ts] as they were cut out of the file,
    and what is visible of it afterwards. *)
Definition scope_at (ord : nat -> list (str * ext)) (h : heap) (startLine : Z) (text : str) (i : nat)
    (ts : list (Z * str * kind)) (v : scope_view) : Prop :=
  exists h1 ls g gs p h' scs sc, tokenised ord h text h1 ls /\ pieces h1 (startLine - 1) ls g gs /\
    gs !! i = Some p /\ ts = map (pay h1) p /\
    parse_scope ord h startLine text = Ok (h', scs) /\ scs !! i = Some sc /\ viewed h' sc v.

Lemma scope_at_view ord h n text i ts v : any_order ord -> SpecNode.wf h -> scope_at ord h n text i ts v -> tview ts v.
Proof.
  intros O W (h1 & ls & g & gs & p & h' & scs & sc & Tk & HP & Ep & -> & E & Es & (cur & C & Hd & ->)).
  destruct (parse_inv ord h n text h1 ls h' scs O W Tk E) as (h2 & g' & gs' & HP' & -> & W1 & W' & SP & Ll & T & Cg & Cgs & O2 & O3 & R3).
  assert (gs' = gs) as ->.
  { clear -HP HP'. revert g' gs' HP'. induction HP as [prev|prev x xs a as_ N H IH|prev x xs a as_ N H IH]; intros b bs H'; inversion H'; subst; try done.
    - by eapply IH.
    - f_equal; [|by eapply IH]. f_equal. destruct (tpieces_unique _ _ _ _ (pieces_tpieces _ _ _ _ _ H) _ _ (pieces_tpieces _ _ _ _ _ ltac:(eassumption))) as [Q _].
      assert (U : forall prev xs a as_ b bs, pieces h1 prev xs a as_ -> pieces h1 prev xs b bs -> a = b); [|by eapply U].
      clear. intros prev xs a as_ b bs H. revert b bs. induction H as [prev|prev x xs a as_ N H IH|prev x xs a as_ N H IH]; intros b bs H'; inversion H'; subst; try done.
      f_equal. by eapply IH. }
  rewrite list_lookup_fmap, Ep in Es. injection Es as <-. pose proof (pieces_nonempty _ _ _ _ _ HP) as NE. rewrite Forall_forall in NE. specialize (NE p (elem_of_list_lookup_2 _ _ _ Ep)).
  rewrite Forall_forall in R3. specialize (R3 p (elem_of_list_lookup_2 _ _ _ Ep)). destruct p as [|l p]; [done|]. cbn [map tview fst snd scope_of] in *. split; [done|].
  assert (Eq : map (pay h1) (l :: p) = map (pay h2) (l :: p)).
  { apply map_ext. intros x. unfold pay. destruct (proj2 SP (Some x)) as (-> & -> & ->). done. }
  change (refines (map (pay h1) (l :: p)) (map (pay h') cur)). rewrite Eq. by apply refined_view.
Qed.
(** Every scope of every parse is such. *)
Theorem C59_scope_at_total : forall ord h startLine text h' scs i, any_order ord -> SpecNode.wf h ->
  parse_scope ord h startLine text = Ok (h', scs) -> i < length scs -> exists ts v, scope_at ord h startLine text i ts v.
Proof.
  intros ord h n text h' scs i O W E Li.
  destruct (C29_tokeniser_terminates ord h text O W) as (h1 & ls & Tk & _).
  destruct (parse_inv ord h n text h1 ls h' scs O W Tk E) as (h2 & g & gs & HP & -> & W1 & W' & SP & Ll & T & Cg & Cgs & O2 & O3 & R3).
  rewrite map_length in Li. destruct (lookup_lt_is_Some_2 gs i Li) as [p Ep].
  pose proof (pieces_nonempty _ _ _ _ _ HP) as NE. rewrite Forall_forall in NE, R3. specialize (NE p (elem_of_list_lookup_2 _ _ _ Ep)). specialize (R3 p (elem_of_list_lookup_2 _ _ _ Ep)).
  destruct (refined_facts h2 h' p W' R3) as ((cur & C & Hd & _) & _).
  exists (map (pay h1) p). eexists. exists h1, ls, g, gs, p, h', (map (scope_of h1) gs), (scope_of h1 p). split; [done|]. split; [done|]. split; [done|]. split; [done|]. split; [done|].
  split; [by rewrite list_lookup_fmap, Ep|]. exists cur. split; [done|]. split; [|reflexivity]. destruct p; [done|]. exact Hd.
Qed.
(** Two scopes cut out with the same texts and kinds, wherever and however they
    were parsed, are the same afterwards: same kind of scope, same nodes, each from
    the same position of the cut and with the line it had there. *)
Theorem C59_scope_local : forall ord h startLine text i ts v ord' h' startLine' text' i' ts' v',
  any_order ord -> SpecNode.wf h -> any_order ord' -> SpecNode.wf h' ->
  scope_at ord h startLine text i ts v -> scope_at ord' h' startLine' text' i' ts' v' ->
  map text_kind ts = map text_kind ts' ->
  snd (fst v) = snd (fst v') /\ map text_kind (snd v) = map text_kind (snd v') /\
  exists js, Forall2 (fun j t => exists u, ts !! j = Some u /\ fst (fst t) = fst (fst u)) js (snd v) /\
             Forall2 (fun j t => exists u, ts' !! j = Some u /\ fst (fst t) = fst (fst u)) js (snd v').
Proof.
  intros ord h n text i ts v ord' h' n' text' i' ts' v' O W O' W' V V' E.
  apply scope_at_view in V; [|done|done]. apply scope_at_view in V'; [|done|done]. destruct ts as [|t ts], ts' as [|t' ts']; try done.
  destruct V as [E1 (js & qs & A & M & F)], V' as [E1' (js' & qs' & A' & M' & F')].
  change (map text_kind) with (map tlook) in E. rewrite <- E in A'. destruct (after_unique _ _ _ _ _ A A') as [<- <-].
  split; [|split].
  - rewrite E1, E1'. cbn [fst snd]. cbn [map] in E. injection E as E _ _. cbn in E. unfold tlook in *. cbn in *. by rewrite E.
  - change (map text_kind) with (map tlook). congruence.
  - exists js. split; (eapply Forall2_impl; [eassumption|]); intros j c Q; cbn beta in Q.
    + destruct ((t :: ts) !! j) as [u|]; [|done]. exists u. split; [done|]. cbn in Q. injection Q as Q. by symmetry.
    + destruct ((t' :: ts') !! j) as [u|]; [|done]. exists u. split; [done|]. cbn in Q. injection Q as Q. by symmetry.
Qed.

(** ** C60 *)
Theorem C60_concatenation : forall ordA hA ordB hB ordC hC startLine startLineB A B va vb vc,
  any_order ordA -> SpecNode.wf hA -> any_order ordB -> SpecNode.wf hB -> any_order ordC -> SpecNode.wf hC ->
  complete A -> begins_scope B -> (startLineB <= 0)%Z ->
  parses_to ordA hA startLine A va -> parses_to ordB hB startLineB B vb -> parses_to ordC hC startLine (A ++ B) vc ->
  vc = va ++ map (down (count_nl A)) vb.
Proof. exact parses_app. Qed.

Lemma open_brackets_app st xs ys : open_brackets st (xs ++ ys) = open_brackets (open_brackets st xs) ys.
Proof. revert st. induction xs as [|x xs IH]; intros st; [done|]. cbn [app open_brackets]. apply IH. Qed.
Lemma tok_texts_down d ts : tok_texts (map (down_tok d) ts) = tok_texts ts.
Proof. unfold tok_texts. rewrite map_map. by apply map_ext. Qed.
Lemma complete_app A B : complete A -> complete B -> begins_scope B -> complete (A ++ B).
Proof.
  intros CA CB BB. pose proof CA as (ta & a & TA & La & Ea & Oa). pose proof CB as (tb & b & TB & Lb & Eb & Ob).
  pose proof (tokens_app A B ta tb CA BB TA TB) as T. exists (ta ++ map (down_tok (count_nl A)) tb), (down_tok (count_nl A) b). split; [done|].
  split; [|split; [done|]].
  - apply last_Some in Lb as [l ->]. rewrite map_app, app_assoc. apply last_snoc.
  - unfold tok_texts in *. rewrite map_app, open_brackets_app, Oa. fold (tok_texts (map (down_tok (count_nl A)) tb)). by rewrite tok_texts_down.
Qed.
Lemma down_0 v : down 0 v = v.
Proof.
  destruct v as [[a b] c]. unfold down. cbn. f_equal; [f_equal; lia|]. induction c as [|[[x y] z] c IH]; [done|]. cbn [map]. rewrite IH. f_equal. unfold down_tok. cbn. by rewrite Z.add_0_r.
Qed.
Lemma down_down d e v : down d (down e v) = down (e + d) v.
Proof.
  destruct v as [[a b] c]. unfold down. cbn. f_equal; [f_equal; lia|]. rewrite map_map. apply map_ext. intros [[x y] z]. unfold down_tok. cbn. by rewrite Z.add_assoc.
Qed.
Lemma stacked_down d e files vss : map (down d) (stacked e files vss) = stacked (e + d) files vss.
Proof.
  revert e vss. induction files as [|f files IH]; intros e [|vs vss]; try done. cbn [stacked]. rewrite map_app, IH, map_map. f_equal.
  - apply map_ext. intros v. rewrite down_down. f_equal; lia.
  - f_equal. lia.
Qed.
Lemma stacked_snoc d files vss f vs : length files = length vss -> stacked d (files ++ [f]) (vss ++ [vs]) = stacked d files vss ++ map (down (d + count_nl (concat files))) vs.
Proof.
  revert d vss. induction files as [|g files IH]; intros d [|ws vss] L; try done; cbn [app stacked concat].
  - rewrite app_nil_r. apply map_ext. intros v. f_equal. change (count_nl []) with 0%Z. lia.
  - rewrite IH by (cbn in L; lia). rewrite app_assoc. f_equal. apply map_ext. intros v. f_equal. rewrite count_nl_app. lia.
Qed.
Lemma complete_concat files : files <> [] -> Forall (fun f => complete f /\ begins_scope f) files -> complete (concat files).
Proof.
  induction files as [|f files IH] using rev_ind; [done|]. intros _ F. apply Forall_app in F as [F Ff]. apply Forall_cons in Ff as [[Cf Bf] _].
  rewrite concat_app. cbn [concat]. rewrite app_nil_r. destruct files as [|g files]; [done|]. apply complete_app; [by apply IH|done|done].
Qed.
Theorem C60_declarations : forall ord h ord' h' startLine files vss vs,
  any_order ord -> SpecNode.wf h -> any_order ord' -> SpecNode.wf h' -> (startLine <= 0)%Z ->
  Forall (fun f => complete f /\ begins_scope f) files ->
  Forall2 (parses_to ord h startLine) files vss -> parses_to ord' h' startLine (concat files) vs ->
  vs = stacked 0 files vss.
Proof.
  intros ord h ord' h' n files vss vs O W O' W' N F. revert vss vs. induction files as [|f files IH] using rev_ind; intros vss vs F2 P.
  - inversion F2; subst. destruct P as (h2 & scs & E & V). vm_compute in E. injection E as <- <-. by inversion V.
  - apply Forall_app in F as [F Ff]. apply Forall_cons in Ff as [[Cf Bf] _].
    apply Forall2_app_inv_l in F2 as (vss1 & vl & F1 & Fl & ->). inversion Fl as [|? v ? ? Pv X]; subst. inversion X; subst. clear Fl X.
    destruct (parses_total ord' h' n (concat files) O' W') as [vs1 P1]. specialize (IH F vss1 vs1 F1 P1).
    rewrite concat_app in P. cbn [concat] in P. rewrite app_nil_r in P. subst vs1.
    destruct files as [|f0 files]; [inversion F1; subst; cbn in *|].
    + rewrite app_nil_r. rewrite (map_ext _ id down_0), map_id. exact (parses_unique ord' h' ord h n f _ _ O' W' O W P Pv).
    + rewrite (stacked_snoc 0 (f0 :: files) vss1 f v) by (by eapply Forall2_length).
      refine (parses_app ord' h' ord h ord' h' n n _ f _ v vs O' W' O W O' W' _ Bf N P1 Pv P).
      by apply complete_concat.
Qed.

Lemma stacked_app d fs1 vs1 fs2 vs2 : length fs1 = length vs1 -> stacked d (fs1 ++ fs2) (vs1 ++ vs2) = stacked d fs1 vs1 ++ stacked (d + count_nl (concat fs1)) fs2 vs2.
Proof.
  revert d vs1. induction fs1 as [|g fs1 IH]; intros d [|ws vs1] L; try done; cbn [app stacked concat].
  - change (count_nl []) with 0%Z. f_equal. lia.
  - rewrite IH by (cbn in L; lia). rewrite app_assoc. f_equal. f_equal. rewrite count_nl_app. lia.
Qed.
(** Editing one declaration changes no other, except for the line numbers below it. *)
Theorem C60_edit : forall ord h ord' h' startLine pre old new post vs vs',
  any_order ord -> SpecNode.wf h -> any_order ord' -> SpecNode.wf h' -> (startLine <= 0)%Z ->
  Forall (fun f => complete f /\ begins_scope f) (pre ++ old :: new :: post) ->
  parses_to ord h startLine (concat (pre ++ old :: post)) vs -> parses_to ord' h' startLine (concat (pre ++ new :: post)) vs' ->
  exists above o n below, vs = above ++ o ++ below /\ vs' = above ++ n ++ map (down (count_nl new - count_nl old)) below /\
    parses_to ord h startLine (concat pre) above /\
    (exists o', parses_to ord h startLine old o' /\ o = map (down (count_nl (concat pre))) o') /\
    (exists n', parses_to ord h startLine new n' /\ n = map (down (count_nl (concat pre))) n').
Proof.
  intros ord h ord' h' n pre old new post vs vs' O W O' W' N F P P'.
  assert (X : forall fs, exists vss, Forall2 (parses_to ord h n) fs vss).
  { induction fs as [|f fs [vss IH]]; [exists []; constructor|]. destruct (parses_total ord h n f O W) as [v V]. exists (v :: vss). by constructor. }
  destruct (X pre) as [va Fa], (X post) as [vb Fb]. destruct (parses_total ord h n old O W) as [o Po], (parses_total ord h n new O W) as [w Pw].
  apply Forall_app in F as [F1 F]. apply Forall_cons in F as [F2 F]. apply Forall_cons in F as [F3 F4].
  assert (E : vs = stacked 0 (pre ++ old :: post) (va ++ o :: vb)).
  { eapply (C60_declarations ord h ord h); try done; [apply Forall_app; split; [done|by constructor]|apply Forall2_app; [done|by constructor]]. }
  assert (E' : vs' = stacked 0 (pre ++ new :: post) (va ++ w :: vb)).
  { eapply (C60_declarations ord h ord' h'); try done; [apply Forall_app; split; [done|by constructor]|apply Forall2_app; [done|by constructor]]. }
  pose proof (Forall2_length _ _ _ Fa) as La. rewrite stacked_app in E, E' by done. cbn [stacked] in E, E'. rewrite Z.add_0_l in *.
  eexists _, _, _, _. split; [exact E|]. split; [|split; [|split]].
  - rewrite E'. f_equal. f_equal. rewrite stacked_down. f_equal. lia.
  - destruct (parses_total ord h n (concat pre) O W) as [vp Pp]. rewrite <- (C60_declarations ord h ord h n pre va vp); done.
  - by exists o.
  - by exists w.
Qed.

(** The hypotheses are met, for example, by a function and a type. *)
Lemma tokens_of h text n : extract src_ord [] text = Ok (h, head (seq 0 n)) -> chain h (seq 0 n) -> tokens text (map (pay h) (seq 0 n)).
Proof. intros E C. refine (tokenised_tokens src_ord [] text h (seq 0 n) _ wf_nil (conj E C)). by intros i. Qed.
Lemma word_first t ts : is_word t -> t <> $"(" -> t <> $"{" -> forall xs c ys, t :: ts = xs ++ c :: ys -> c = $"(" \/ c = $"{" -> exists w, w ∈ xs /\ is_word w.
Proof. intros Wt N1 N2 [|x xs] c ys E H; cbn in E; injection E as -> E; [by destruct H|]. exists x. split; [by left|done]. Qed.
Definition decl_f : str := $"func f(x int) {" ++ [c_nl; c_tab] ++ $"return // {" ++ [c_nl] ++ $"}" ++ [c_nl].
Definition decl_t : str := $"type T struct {" ++ [c_nl; c_tab] ++ $"A int" ++ [c_nl] ++ $"}" ++ [c_nl; c_nl].
Example ex_C60 : Forall (fun f => complete f /\ begins_scope f) [decl_f; decl_t].
Proof.
  constructor; [|constructor; [|constructor]].
  - assert (T : exists ts, tokens decl_f ts /\ last ts = Some (2%Z, [c_nl], KNewLine) /\ tok_texts ts = [$"func"; $" "; $"f"; $"("; $"x"; $" "; $"int"; $")"; $" "; $"{"; [c_nl]; [c_tab]; $"return"; $" "; $"// {"; [c_nl]; $"}"; [c_nl]]).
    { eexists. split; [eapply (tokens_of _ decl_f 18); [vm_compute; reflexivity|vm_compute; repeat split; lia]|]. split; vm_compute; reflexivity. }
    destruct T as (ts & T & L & Tx). split.
    + exists ts, (2%Z, [c_nl], KNewLine). split; [done|]. split; [done|]. split; [done|]. rewrite Tx. vm_compute. reflexivity.
    + destruct ts as [|t ts]; [done|]. exists (t :: ts), t, ts. split; [done|]. split; [done|]. pose proof Tx as Tx'. unfold tok_texts in Tx'. cbn [map] in Tx'. injection Tx' as Et _. rewrite Et. split.
      * exists $"func". split; [repeat (try (left; fail); apply elem_of_cons; (left; reflexivity) || right)|done].
      * rewrite Tx. apply word_first; [|discriminate|discriminate]. split; [|discriminate]. intros [d [q E]]. destruct d; discriminate E.
  - assert (T : exists ts, tokens decl_t ts /\ last ts = Some (3%Z, [c_nl], KNewLine) /\ tok_texts ts = [$"type"; $" "; $"T"; $" "; $"struct"; $" "; $"{"; [c_nl]; [c_tab]; $"A"; $" "; $"int"; [c_nl]; $"}"; [c_nl]; [c_nl]]).
    { eexists. split; [eapply (tokens_of _ decl_t 16); [vm_compute; reflexivity|vm_compute; repeat split; lia]|]. split; vm_compute; reflexivity. }
    destruct T as (ts & T & L & Tx). split.
    + exists ts, (3%Z, [c_nl], KNewLine). split; [done|]. split; [done|]. split; [done|]. rewrite Tx. vm_compute. reflexivity.
    + destruct ts as [|t ts]; [done|]. exists (t :: ts), t, ts. split; [done|]. split; [done|]. pose proof Tx as Tx'. unfold tok_texts in Tx'. cbn [map] in Tx'. injection Tx' as Et _. rewrite Et. split.
      * exists $"type". split; [repeat (try (left; fail); apply elem_of_cons; (left; reflexivity) || right)|done].
      * rewrite Tx. apply word_first; [|discriminate|discriminate]. split; [|discriminate]. intros [d [q E]]. destruct d; discriminate E.
Qed.
(** The number of scopes parsed, and their lines. *)
Definition scope_lines (text : str) : list Z :=
  match parse_scope src_ord [] 0 text with Ok (_, scs) => map (fun sc => scope_line (Some sc)) scs | _ => [] end.
Example ex_C60_lines : scope_lines (decl_f ++ decl_t ++ decl_f) = [1; 4; 8]%Z.
Proof. vm_compute. reflexivity. Qed.
(** Neither hypothesis can be dropped: a text that does not end its line, or one
    that does not begin a scope, runs into its neighbour. *)
Theorem C60_unconditional_refuted :
  (scope_lines $"var x" = [1%Z] /\ scope_lines $"var y" = [1%Z] /\ scope_lines ($"var x" ++ $"var y") = [1%Z]) /\
  (scope_lines ($"var x" ++ [c_nl]) = [1%Z] /\ scope_lines ($"y" ++ [c_nl]) = [] /\
   match parse_scope src_ord [] 0 ($"var x" ++ [c_nl] ++ $"y" ++ [c_nl]) with
   | Ok (h, [sc]) => sc_node sc = Some 0 /\ next_of h (Some 3) = Some 4 /\ text_of h (Some 4) = $"y" | _ => False end).
Proof. vm_compute. repeat split. Qed.
