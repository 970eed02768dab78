(** C67: the example program removes comments and nothing else. *)
From Verif Require Import Tool SpecTool SpecEdit NodeProofs NodeInv NodeChain NodeHist NodeFinal Scope Ast SpecScope SpecText SpecLex ResetSpec LexSpecProofs PureProofs P_Node P_Scope P_Ast P_Text P_Lex P_Iter P_Edit P_More Conc.

Definition wanted (sc : scope) : bool := bool_decide (sc_kind sc ∈ tool_kinds).
Fixpoint left (h : heap) (scs : list scope) (lss : list (list loc)) : list (scope * list loc) :=
  match scs, lss with
  | sc :: scs, ls :: lss => (if wanted sc then [(sc, stripped (kind_eqb KComment) h ls)] else []) ++ left h scs lss
  | _, _ => []
  end.
Lemma stripped_ext u h h' ls : same_payload h h' -> stripped u h' ls = stripped u h ls.
Proof.
  intros [_ P]. induction ls as [|l [|m r] IH]; [done|done|]. rewrite !stripped_cons, IH. by rewrite (proj1 (proj2 (P (Some l)))).
Qed.
Lemma left_ext h h' scs lss : same_payload h h' -> left h' scs lss = left h scs lss.
Proof. intros P. revert lss. induction scs as [|sc scs IH]; intros [|ls lss]; [done..|]. cbn [left]. by rewrite IH, (stripped_ext _ h h' ls P). Qed.
Lemma stripped_head u h l ls : u (kind_of h (Some l)) = false -> head (stripped u h (l :: ls)) = Some l.
Proof. intros U. destruct ls; [done|]. by rewrite stripped_cons, U. Qed.
Lemma chain_short h ls : chain h ls -> length ls <= length h.
Proof.
  intros C. pose proof (chain_NoDup _ _ C) as N. rewrite <- (seq_length (length h) 0) at 1. apply NoDup_incl_length; [by apply NoDup_ListNoDup|].
  intros x Hx. apply elem_of_list_In in Hx. apply in_seq. pose proof (valid_chain _ _ _ C Hx) as V. unfold valid in V. lia.
Qed.

Lemma stripped_sublist u h ls : stripped u h ls `sublist_of` ls.
Proof. induction ls as [|l [|m r] IH]; [done|done|]. rewrite stripped_cons. destruct (u _); [by apply sublist_cons|by apply sublist_skip]. Qed.
Lemma left_sublist h scs lss : concat (map snd (left h scs lss)) `sublist_of` concat lss.
Proof.
  revert lss. induction scs as [|sc scs IH]; intros [|ls lss]; [apply sublist_nil_l..|]. cbn [left]. rewrite map_app, concat_app. cbn [concat]. apply sublist_app; [|apply IH].
  destruct (wanted sc); [|apply sublist_nil_l]. cbn [map concat snd]. rewrite app_nil_r. apply stripped_sublist.
Qed.
Lemma keqb_eq k k' : kind_eqb k k' = true <-> k = k'.
Proof. unfold kind_eqb. by rewrite bool_decide_eq_true. Qed.

Lemma strip_document h scs lss : document h (map Some scs) (map (pair []) lss) ->
  (forall sc l, sc ∈ scs -> wanted sc = true -> sc_node sc = Some l -> kind_of h (Some l) <> KComment) ->
  exists h', strip_scopes h (map Some scs) = Ok (h', map Some (map fst (left h scs lss))) /\
    document h' (map Some (map fst (left h scs lss))) (map (pair []) (map snd (left h scs lss))) /\
    same_payload h h' /\
    (forall zs, chain h zs -> (forall x, x ∈ concat lss -> x ∉ zs) -> chain h' zs).
Proof.
  revert h lss. induction scs as [|sc scs IH]; intros h lss D Hc.
  - destruct lss as [|ls lss]; [|destruct D as (_ & F & _); by inversion F]. exists h. split; [done|]. split; [done|]. split; [|done]. by split.
  - destruct lss as [|ls lss]; [destruct D as (_ & F & _); by inversion F|]. pose proof D as (W & F & N). cbn [map] in F. apply Forall2_cons in F as [F1 F2].
    rewrite nodes_of_pair in N. cbn [concat] in N. apply NoDup_app in N as (N1 & N2 & N3).
    destruct F1 as (sc' & Es & En & Ne & C). injection Es as <-. cbn [fst snd app] in *.
    cbn [map strip_scopes]. change (bool_decide (sc_kind sc ∈ tool_kinds)) with (wanted sc). cbn [left]. destruct (wanted sc) eqn:Ws.
    + destruct ls as [|l ls]; [done|]. cbn [head hd_error] in En. rewrite En.
      destruct (C61_strip (kind_eqb KComment) h l ls (S (length h)) W C) as (h1 & fl & E1 & W1 & P1 & C1 & _ & K1); [pose proof (chain_short _ _ C); lia|].
      rewrite E1. cbn [res_bind fst snd].
      assert (U : kind_eqb KComment (kind_of h (Some l)) = false).
      { destruct (kind_eqb KComment _) eqn:Q; [|done]. apply keqb_eq in Q. exfalso. apply (Hc sc l); [by left|done|done|done]. }
      assert (D1 : document h1 (map Some scs) (map (pair []) lss)).
      { split; [done|]. split; [|by rewrite nodes_of_pair]. clear -F2 K1 N2. induction lss as [|ls2 lss IH] in scs, F2, N2 |- *; destruct scs as [|sc2 scs]; [by constructor|by inversion F2..|].
        { cbn [map] in *. apply Forall2_cons in F2 as [(sc' & E & En & Ne & C2) F2]. cbn [concat] in N2. constructor.
          + exists sc'. split; [done|]. split; [done|]. split; [done|]. apply K1; [done|]. intros x Hx Hy. apply (N2 x Hx). apply elem_of_app. by left.
          + apply IH; [done|]. intros x Hx Hy. apply (N2 x Hx). apply elem_of_app. by right. } }
      destruct (IH h1 lss D1) as (h2 & E2 & D2 & P2 & K2).
      { intros sc2 l2 H2 W2 S2. rewrite (proj1 (proj2 (proj2 P1 (Some l2)))). apply (Hc sc2); [by right|done|done]. }
      rewrite E2. cbn [res_bind]. exists h2. rewrite (left_ext h h1 _ _ P1) in D2 |- *. cbn [app map fst snd]. split; [done|]. split; [|split].
      * destruct D2 as (W2 & F & N). split; [done|]. split.
        -- constructor; [|done]. exists sc. split; [done|]. cbn [fst snd app]. rewrite stripped_head by done. split; [done|]. split.
           ++ intros Q. pose proof (stripped_head (kind_eqb KComment) h l ls U) as Q2. by rewrite Q in Q2.
           ++ apply K2; [done|]. intros x Hx Hy. apply stripped_in in Hy. by apply (N2 x Hy).
        -- change (NoDup (nodes_of (map (pair []) (stripped (kind_eqb KComment) h (l :: ls) :: map snd (left h scs lss))))).
           rewrite nodes_of_pair. cbn [concat]. eapply sub_NoDup; [apply sublist_app; [apply stripped_sublist|apply left_sublist]|]. apply NoDup_app. split; [exact N1|]. split; [exact N2|exact N3].
      * destruct P1 as [L1 P1], P2 as [L2 P2]. split; [by rewrite L2|]. intros p. destruct (P1 p) as (Q1 & Q2 & Q3), (P2 p) as (Q4 & Q5 & Q6). rewrite Q4, Q5, Q6. done.
      * intros zs Cz Hz. apply K2; [apply K1; [done|]|]; intros x Hx; apply Hz; cbn [concat]; apply elem_of_app; [by left|by right].
    + assert (D1 : document h (map Some scs) (map (pair []) lss)) by (split; [done|]; split; [done|]; by rewrite nodes_of_pair).
      destruct (IH h lss D1) as (h2 & E2 & D2 & P2 & K2); [intros sc2 l2 H2; apply Hc; by right|]. exists h2. cbn [app]. split; [done|]. split; [done|]. split; [done|].
      intros zs Cz Hz. apply K2; [done|]. intros x Hx. apply Hz. cbn [concat]. apply elem_of_app. by right.
Qed.

(** ** C67 *)
Lemma stripped_uncommented h ls : NoDup ls -> stripped (kind_eqb KComment) h ls = uncommented h ls.
Proof.
  assert (G : forall z ls, NoDup (ls ++ [z]) -> stripped (kind_eqb KComment) h (ls ++ [z]) = filter (fun l => kind_of h (Some l) <> KComment \/ Some z = Some l) (ls ++ [z])).
  { intros z. induction ls0 as [|l r IH]; intros N.
    - cbn [app stripped]. rewrite filter_cons_True; [done|by right].
    - cbn [app] in *. apply NoDup_cons in N as [N1 N2]. assert (Nz : z <> l) by (intros ->; apply N1, elem_of_app; right; by left).
      assert (E : stripped (kind_eqb KComment) h (l :: r ++ [z]) = if kind_eqb KComment (kind_of h (Some l)) then stripped (kind_eqb KComment) h (r ++ [z]) else l :: stripped (kind_eqb KComment) h (r ++ [z])) by (by destruct r).
      rewrite E, IH by done. destruct (kind_eqb KComment (kind_of h (Some l))) eqn:Q.
      + apply keqb_eq in Q. rewrite filter_cons_False; [done|]. intros [H|H]; congruence.
      + rewrite filter_cons_True; [done|]. left. intros H. assert (X : kind_eqb KComment (kind_of h (Some l)) = true) by (by apply keqb_eq). congruence. }
  intros N. unfold uncommented. destruct (decide (ls = [])) as [->|Ne]; [done|]. destruct (exists_last Ne) as (r & z & ->). rewrite last_snoc. by apply G.
Qed.
Lemma left_kept h scs lss : Forall (fun sc => sc_kind sc ∈ scope_keywords) scs -> NoDup (concat lss) -> length scs = length lss ->
  left h scs lss = map (fun p => (fst p, uncommented h (snd p))) (kept scs lss).
Proof.
  revert lss. induction scs as [|sc scs IH]; intros [|ls lss] F N L; try discriminate L; [done|].
  inversion_clear F as [|? ? F1 F2]. cbn [concat] in N. apply NoDup_app in N as (N1 & _ & N2). injection L as L. cbn [left]. rewrite IH by done.
  unfold kept. cbn [zip zip_with]. fold (zip scs lss).
  assert (D : wanted sc = bool_decide (no_comment sc)).
  { clear -F1. destruct sc as [? k ?]. cbn [sc_kind] in F1. rename F1 into Hk. unfold scope_keywords in Hk.
    repeat (apply elem_of_cons in Hk as [->|Hk]; [vm_compute; reflexivity|]). by apply elem_of_nil in Hk. }
  rewrite D, stripped_uncommented by done. case_bool_decide as H; [rewrite filter_cons_True by done|rewrite filter_cons_False by done]; done.
Qed.
Lemma parsed_roots ord h n text h1 scs : any_order ord -> SpecNode.wf h -> parse_scope ord h n text = Ok (h1, scs) ->
  Forall (fun sc => sc_kind sc ∈ scope_keywords) scs /\
  (forall sc l, sc ∈ scs -> wanted sc = true -> sc_node sc = Some l -> kind_of h1 (Some l) <> KComment).
Proof.
  intros O W E. destruct (C29_tokeniser_terminates ord h text O W) as (h0 & ls & Tk & _).
  pose proof (proj1 (C35_scope_starts ord h n text h0 ls h1 scs O W Tk E)) as St. split.
  - rewrite Forall_forall. intros sc Hsc. destruct (St sc Hsc) as (_ & _ & _ & _ & _ & _ & (B & _) & _). done.
  - intros sc l Hsc Ws En Hk. destruct (St sc Hsc) as (l' & xs & ys & En' & El & _ & _ & Ek & _). rewrite En in En'. injection En' as <-.
    assert (Hl : l ∈ ls) by (rewrite El; apply elem_of_app; right; by left).
    destruct (C38_parse_scope_refines ord h n text h0 ls h1 scs O W Tk E) as (_ & _ & _ & Kd & _). destruct (Kd l Hl) as [K|K].
    + pose proof (C58_scope_to_kind ord h n text h0 ls h1 scs sc O W Tk E Hsc) as [_ H]. rewrite En in H. rewrite <- K, Hk in H. specialize (H (or_intror eq_refl)).
      rewrite Ek in H. apply bool_decide_eq_true in Ws. clear -Ws H. generalize dependent (sc_kind sc). intros k Hk H. unfold tool_kinds in Hk.
      repeat (apply elem_of_cons in Hk as [->|Hk]; [vm_compute in H; discriminate H|]). by apply elem_of_nil in Hk.
    + rewrite Hk in K. clear -K. unfold refined in K. repeat (apply elem_of_cons in K as [K|K]; [vm_compute in K; discriminate K|]). by apply elem_of_nil in K.
Qed.
(** After parsing any text, the program leaves exactly the scopes that are no
    comments, and of these the nodes that are no comments (and the last), and Save
    writes their texts. *)
Theorem C67_strip : forall ord h startLine text h1 scs, any_order ord -> SpecNode.wf h ->
  parse_scope ord h startLine text = Ok (h1, scs) ->
  exists lss h2, document h1 (map Some scs) (map (pair []) lss) /\
    strip_scopes h1 (map Some scs) = Ok (h2, map (fun p => Some (fst p)) (kept scs lss)) /\
    document h2 (map (fun p => Some (fst p)) (kept scs lss)) (map (fun p => ([], uncommented h1 (snd p))) (kept scs lss)) /\
    same_payload h1 h2 /\
    save_text h2 (map (fun p => Some (fst p)) (kept scs lss)) = Ok (concat (map (fun p => text_at h1 (uncommented h1 (snd p))) (kept scs lss))).
Proof.
  intros ord h n text h1 scs O W E. destruct (C65_parsed ord h n text h1 scs O W E) as (lss & D). exists lss.
  destruct (parsed_roots ord h n text h1 scs O W E) as [F1 F2]. destruct (strip_document h1 scs lss D F2) as (h2 & E2 & D2 & P2 & _). exists h2.
  assert (L : length scs = length lss). { destruct D as (_ & F & _). apply Forall2_length in F. by rewrite !map_length in F. }
  assert (N : NoDup (concat lss)). { destruct D as (_ & _ & N). by rewrite nodes_of_pair in N. }
  rewrite (left_kept h1 scs lss F1 N L) in E2, D2. rewrite !map_map in E2, D2. rewrite !(map_map _ (pair _)) in D2. rewrite ?map_map in D2. cbn [fst snd] in E2, D2.
  split; [exact D|]. split; [exact E2|]. split; [exact D2|]. split; [exact P2|]. rewrite (document_written _ _ _ D2). unfold written. rewrite map_map. cbn [snd].
  f_equal. f_equal. apply map_ext. intros p. by apply text_at_payload.
Qed.

Lemma first_text ord h n text h1 scs lss : any_order ord -> SpecNode.wf h -> parse_scope ord h n text = Ok (h1, scs) ->
  document h1 (map Some scs) (map (pair []) lss) -> (exists sc, sc ∈ scs /\ sc_kind sc = SPackage) ->
  concat (map (fun p => text_at h1 (uncommented h1 (snd p))) (kept scs lss)) <> [].
Proof.
  intros O W E D (sc & Hsc & K). destruct (C29_tokeniser_terminates ord h text O W) as (h0 & ls & Tk & _).
  destruct (proj1 (C35_scope_starts ord h n text h0 ls h1 scs O W Tk E) sc Hsc) as (l & _ & _ & En & _ & _ & (_ & B) & _).
  destruct (C40_scope_kinds ord h n text h0 ls h1 scs sc O W Tk E Hsc) as (_ & gr & _ & _ & Hd & _ & Pg); [by rewrite K..|].
  rewrite En in Hd. destruct gr as [|l' gr]; [done|]. injection Hd as ->. specialize (Pg l ltac:(by left)). injection Pg as _ Pt _.
  assert (Nc : kind_of h1 (Some l) <> KComment). { eapply (proj2 (parsed_roots ord h n text h1 scs O W E) sc l); [done| |done]. unfold wanted. by rewrite K. }
  destruct D as (_ & F & _). apply elem_of_list_lookup in Hsc as (i & Hi).
  assert (Q : exists ls', zip scs lss !! i = Some (sc, ls') /\ head ls' = Some l).
  { clear -F Hi En. revert lss i F Hi. induction scs as [|s scs IH]; intros lss i F Hi; [done|]. destruct lss as [|c lss]; [by inversion F|]. cbn [map] in F. apply Forall2_cons in F as [(s' & Es & Eh & _) F].
    destruct i as [|i]; [|by apply (IH lss i)]. injection Hi as ->. injection Es as <-. exists c. split; [done|]. cbn [snd] in Eh. congruence. }
  destruct Q as (ls' & Hz & Hd). destruct ls' as [|l' ls']; [done|]. injection Hd as ->.
  assert (Hk : (sc, l :: ls') ∈ kept scs lss).
  { unfold kept. apply elem_of_list_filter. split; [cbn [fst]; split; rewrite K; discriminate|]. by eapply elem_of_list_lookup_2. }
  intros Ec. apply elem_of_list_split in Hk as (u & v & Ek). rewrite Ek, map_app, concat_app in Ec. apply app_eq_nil in Ec as [_ Ec]. cbn [map concat snd] in Ec. apply app_eq_nil in Ec as [Ec _].
  unfold uncommented in Ec. rewrite filter_cons_True in Ec by (by left). rewrite text_at_cons in Ec. apply app_eq_nil in Ec as [Ec _].
  rewrite Pt in Ec. rewrite K, Ec in B. destruct B as [q B]. discriminate B.
Qed.
(** The whole program: if the file can be read and formatted and has a package
    scope, it writes to the other file (and to no other) the formatted text of what
    is left, or fails like Save. *)
Theorem C67_file : forall e f ord spare h m file path buf text h1 scs file' path', any_order ord -> SpecNode.wf h ->
  go_file file path -> go_file file' path' ->
  f path = Some buf -> en_can_open e path = true -> en_format e buf = Some text ->
  parse_scope ord h 0 text = Ok (h1, scs) -> (exists sc, sc ∈ scs /\ sc_kind sc = SPackage) ->
  exists lss states f' err, document h1 (map Some scs) (map (pair []) lss) /\
    strip_file e f ord spare h m file file' = Ok (states, f', err) /\
    let t := concat (map (fun p => text_at h1 (uncommented h1 (snd p))) (kept scs lss)) in
    (en_mkdir e (en_dir e path') = true -> en_create e path' = true ->
       length (to_write e path' false t) <= en_write e path' (to_write e path' false t) -> err = None) /\
    (err = None -> f' path' = Some (to_write e path' false t)) /\
    (forall q, q <> path' -> f' q = f q).
Proof.
  intros e f ord spare h m file path buf text h1 scs file' path' O W G G' Ef Eo Eb E Hp.
  destruct (C67_strip ord h 0 text h1 scs O W E) as (lss & h2 & D & E2 & D2 & P2 & _). exists lss.
  pose proof (C48_parse_ast e f ord spare h m file path O W G) as H. rewrite Ef, Eo, Eb in H.
  destruct H as (h1' & scs' & E' & H). rewrite E in E'. injection E' as <- <-. destruct H as [[N _]|(_ & m1 & a & Ep & _ & _ & El & _)].
  { destruct Hp as (sc & Hsc & K). by destruct (N sc Hsc). }
  unfold strip_file. rewrite Ep. cbn [res_bind]. rewrite El, E2. cbn [res_bind fresh_slice].
  set (cells := map (fun p => Some (fst p)) (kept scs lss)) in *.
  assert (Ec : elems (m1 ++ [cells]) (a_scope (ast_set_scope a (mkSlice (length m1) 0 (length cells) (length cells)))) = cells).
  { cbn [ast_set_scope a_scope]. unfold elems. cbn [sl_off sl_len]. rewrite arr_end, drop_0. by apply take_ge. }
  destruct (C46_save e f h2 _ _ file' path' false cells _ Ec (document_nodes _ _ _ D2) G') as (states & f' & err & Es & _ & S1 & S2 & S3).
  exists states, f', err. split; [done|]. split; [done|].
  rewrite !map_map in S1, S2. cbn [snd] in S1, S2. cbv zeta.
  assert (Et : concat (map (fun p => text_at h2 (uncommented h1 (snd p))) (kept scs lss)) = concat (map (fun p => text_at h1 (uncommented h1 (snd p))) (kept scs lss))).
  { f_equal. apply map_ext. intros p. by apply text_at_payload. }
  rewrite Et in S1, S2. split; [|split; [|done]].
  - apply S1. by eapply first_text.
  - intros Hn. by apply S2.
Qed.

(** A file with comments inside and outside of declarations; and one where a
    comment at the beginning of a line inside a function starts a scope of its own,
    with which the rest of the function is lost. *)
Definition tool_run (text : str) : option str :=
  let e := mkEnv Some (fun _ _ => None) (fun x => x) (fun x => x) (fun x => x) (fun _ => true) (fun _ => true) (fun _ => true) (fun _ => true) (fun _ t => length t) in
  match strip_file e (fun q => if bool_decide (q = $"a.go") then Some text else None) src_ord 3 [] [] $"a" $"b" with
  | Ok (_, f, None) => f $"b.go"
  | _ => None
  end.
Example ex_C67 :
  tool_run (lines ["// head"; "package a"; "/* x */"; "var v = 1 /* y */ + 2 // z"; "func f() { // u"; " return"; "}"])%string =
  Some (lines ["package a"; "var v = 1  + 2 "; "func f() { "; " return"; "}"])%string.
Proof. vm_compute. reflexivity. Qed.
Theorem C67_only_comments_refuted :
  tool_run (lines ["package a"; "func f() {"; "//line x.go:1"; " g()"; "}"])%string = Some (lines ["package a"; "func f() {"])%string.
Proof. vm_compute. reflexivity. Qed.
