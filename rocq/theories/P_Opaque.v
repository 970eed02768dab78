(** C72: names, strings and comments are opaque: what a parse makes of a file
    depends on them only in so far as they turn up in the texts of nodes. *)
From Verif Require Import SpecOpaque Opaque LexSpecProofs LocalLex Reset ResetSpec Local LocalCanon LocalProofs SpecAst NodeIter P_Pure P_Lex P_Scope P_Local P_Ast P_Get.

Section opaque.
Context (ws ws' : list str).
Definition both (x y : str) : Prop := exists js, x = pick ws js /\ y = pick ws' js.
Lemma both_nil : both [] []. Proof. by exists []. Qed.
Lemma pick_app vs a b : pick vs (a ++ b) = pick vs a ++ pick vs b.
Proof. unfold pick. by rewrite map_app, concat_app. Qed.
Lemma both_app a b c d : both a b -> both c d -> both (a ++ c) (b ++ d).
Proof. intros (js & -> & ->) (ks & -> & ->). exists (js ++ ks). by rewrite !pick_app. Qed.
Lemma both_at j t t' : ws !! j = Some t -> ws' !! j = Some t' -> both t t'.
Proof. intros E E'. exists [j]. unfold pick. cbn. rewrite E, E'. cbn. by rewrite !app_nil_r. Qed.

Definition tok_alike (t u : tok) : Prop :=
  tline t = tline u /\ snd t = snd u /\ (forall k, begins k (snd (fst t)) <-> begins k (snd (fst u))) /\ both (snd (fst t)) (snd (fst u)).
Lemma tpieces_alike prev ts g gs : tpieces prev ts g gs -> forall ts', Forall2 tok_alike ts ts' ->
  exists g' gs', tpieces prev ts' g' gs' /\ Forall2 tok_alike g g' /\ Forall2 (Forall2 tok_alike) gs gs'.
Proof.
  induction 1 as [prev|prev t ts g gs N _ IH|prev t ts g gs S1 S2 _ IH]; intros ts' F.
  - apply Forall2_nil_inv_l in F as ->. exists [], []. split; [constructor|]. by split.
  - apply Forall2_cons_inv_l in F as (t' & ts2 & A & F & ->). destruct (IH ts2 F) as (g' & gs' & TP & Fg & Fgs). exists (t' :: g'), gs'.
    pose proof A as (A1 & _ & A3 & _). split; [|split; [by constructor|done]]. rewrite A1 in TP. apply tp_inside; [|done]. intros [N1 [k B]]. apply N. rewrite A1. split; [done|]. exists k. by apply A3.
  - apply Forall2_cons_inv_l in F as (t' & ts2 & A & F & ->). destruct (IH ts2 F) as (g' & gs' & TP & Fg & Fgs). exists [], ((t' :: g') :: gs').
    pose proof A as (A1 & _ & A3 & _). split; [|split; [done|constructor; [by constructor|done]]]. rewrite A1 in TP, S1. apply tp_start; [done| |done]. destruct S2 as [k B]. exists k. by apply A3.
Qed.
Lemma same_scope_kind t t' : (forall k, begins k t <-> begins k t') -> new_scope_kind t = new_scope_kind t'.
Proof.
  intros H. destruct (decide (new_scope_kind t ∈ scope_keywords)) as [I|I].
  - symmetry. apply C19_scope_keyword_spec; [done|]. apply H. split; [done|]. by apply C19_scope_keyword_spec.
  - assert (U : new_scope_kind t = SUnknown).
    { apply C19_no_scope_keyword. intros k Hk P. apply I. assert (E : new_scope_kind t = k) by (by apply C19_scope_keyword_spec). by rewrite E. }
    rewrite U. symmetry. apply C19_no_scope_keyword. intros k Hk P. rewrite C19_no_scope_keyword in U. apply (U k Hk). by apply H.
Qed.
Lemma tview_alike p p' v v' : Forall2 tok_alike p p' -> tview p v -> tview p' v' -> view_alike ws ws' v v'.
Proof.
  intros F V V'. pose proof F as F0. destruct F as [|t t' p p' (A1 & A2 & A3 & A4) F]; [done|]. cbn [tview] in V, V'.
  destruct V as [E (js & qs & A & M & G)], V' as [E' (js' & qs' & A' & M' & G')].
  split; [rewrite E, E', A1; f_equal; by apply same_scope_kind|].
  assert (L : Forall2 (alike_look both) (map tlook (t :: p)) (map tlook (t' :: p'))).
  { apply Forall2_fmap. eapply Forall2_impl; [exact F0|]. intros x y (B1 & B2 & B3 & B4). split; [exact B4|exact B2]. }
  destruct (after_alike both _ _ js qs js' qs' both_nil both_app L A A') as [<- Q].
  rewrite <- M, <- M' in Q. change (Forall2 (alike_look both) (tlook <$> snd v) (tlook <$> snd v')) in Q. rewrite Forall2_fmap in Q. clear -F0 G G' Q. destruct v as [v0 c], v' as [v0' c']. cbn [snd] in *.
  revert js G G'. induction Q as [|x y cs cs' [Q1 Q2] Q IH]; intros js G G'; [constructor|].
  apply Forall2_cons_inv_r in G as (j & js1 & Gj & G & ->). apply Forall2_cons_inv_l in G' as (y' & c2 & Gj' & G' & Ec). injection Ec as <- <-.
  constructor; [|by eapply IH]. split; [|split; [exact Q2|exact Q1]].
  destruct ((t :: p) !! j) as [u|] eqn:Eu; [|done]. destruct (Forall2_lookup_l _ _ _ _ _ F0 Eu) as (u' & Eu' & (B1 & _)). rewrite Eu' in Gj'. cbn in Gj, Gj'.
  injection Gj as Gj. injection Gj' as Gj'. unfold tline in *. congruence.
Qed.
End opaque.

Lemma ic_begins t t' : interchangeable t t' -> forall k, begins k t -> begins k t'.
Proof.
  intros H k [Hk P]. destruct H as [t|w w' _ _ _ B|d t t' Nd W W' _|b b' _ _ _]; [by split|by apply B|split; [done|]..].
  - destruct W as [C _], W' as [C' _]. apply closed_opener in C, C'. destruct C as [q ->], C' as [q' ->].
    unfold scope_keywords in Hk. repeat (apply elem_of_cons in Hk as [->|Hk]); [..|by apply elem_of_nil in Hk]; destruct d; try done;
      try (destruct P as [x E]; discriminate E). by exists q'.
  - unfold scope_keywords in Hk. repeat (apply elem_of_cons in Hk as [->|Hk]); [..|by apply elem_of_nil in Hk]; destruct P as [x E]; try discriminate E. by exists b'.
Qed.

(** ** C72 *)
(** Exchanging tokens of a text for interchangeable ones exchanges them in the
    token list and changes nothing else. *)
Theorem C72_tokens : forall s ts ws, tokens s ts -> Forall2 interchangeable (tok_texts ts) ws ->
  exists ts', tokens (concat ws) ts' /\ tok_texts ts' = ws /\ map fst (map fst ts') = map fst (map fst ts) /\ map snd ts' = map snd ts.
Proof.
  intros s ts ws T F. destruct (scan_exchange _ _ _ _ _ T ltac:(constructor) ws F) as (ts' & T' & E & G). exists ts'. split; [done|]. split; [done|].
  clear -G. induction G as [|t u ts ts' [H1 H2] G [IH1 IH2]]; [done|]. cbn [map]. by rewrite H1, H2, IH1, IH2.
Qed.
(** The scopes and nodes of the two files are the same, except for the texts; and
    each text is put together in the same way. *)
Theorem C72_parse : forall ord h ord' h' startLine s ts ws vs vs', any_order ord -> SpecNode.wf h -> any_order ord' -> SpecNode.wf h' ->
  tokens s ts -> Forall2 interchangeable (tok_texts ts) ws ->
  parses_to ord h startLine s vs -> parses_to ord' h' startLine (concat ws) vs' ->
  Forall2 (view_alike (tok_texts ts) ws) vs vs'.
Proof.
  intros ord h ord' h' n s ts ws vs vs' O W O' W' T F P P'.
  destruct (scan_exchange _ _ _ _ _ T ltac:(constructor) ws F) as (ts' & T' & E & G).
  apply parses_view in P as (t1 & g & gs & T1 & TP & V); [|done|done]. apply parses_view in P' as (t2 & g' & gs' & T2 & TP' & V'); [|done|done].
  rewrite (tokens_unique _ _ _ T1 T) in *. rewrite (tokens_unique _ _ _ T2 T') in *. clear T1 T2 t1 t2.
  assert (A : Forall2 (tok_alike (tok_texts ts) ws) ts ts').
  { apply Forall2_same_length_lookup_2; [by eapply Forall2_length|]. intros j t u Et Eu.
    destruct (Forall2_lookup_lr _ _ _ _ _ _ G Et Eu) as [G1 G2].
    assert (Wt : tok_texts ts !! j = Some (snd (fst t))) by (unfold tok_texts; by rewrite list_lookup_fmap, Et).
    assert (Wu : ws !! j = Some (snd (fst u))) by (rewrite <- E; unfold tok_texts; by rewrite list_lookup_fmap, Eu).
    pose proof (Forall2_lookup_lr _ _ _ _ _ _ F Wt Wu) as I. split; [exact G1|]. split; [exact G2|]. split; [|by eapply both_at].
    intros k. split; [by apply ic_begins|apply ic_begins; by apply ic_sym]. }
  destruct (tpieces_alike _ _ _ _ _ _ TP ts' A) as (g2 & gs2 & TP2 & _ & Fgs). destruct (tpieces_unique _ _ _ _ TP2 _ _ TP') as [_ ->]. clear -Fgs V V'.
  revert vs vs' V V'. induction Fgs as [|p p' gs gs' Fp Fgs IH]; intros vs vs' V V'; inversion V as [|? v ? vs1 Pv V1]; subst; inversion V' as [|? v' ? vs1' Pv' V1']; subst; [constructor|].
  constructor; [by eapply tview_alike|by apply IH].
Qed.
(** So the getters find the same, up to the exchanged texts. *)
Lemma scan_list_rel {A} (R : A -> A -> Prop) (RL : loc -> loc -> Prop) f f' ls ls' : Forall2 RL ls ls' ->
  (forall l l' a a', RL l l' -> R a a' -> R (fst (f l a)) (fst (f' l' a')) /\ snd (f l a) = snd (f' l' a')) ->
  forall a a', R a a' -> R (fst (scan_list f ls a)) (fst (scan_list f' ls' a')).
Proof.
  intros F Hf. induction F as [|l l' ls ls' H F IH]; intros a a' Ha; [done|]. cbn [scan_list]. destruct (Hf l l' a a' H Ha) as [H1 H2].
  destruct (f l a) as [x b], (f' l' a') as [x' b']. cbn [fst snd] in *. subst b'. destruct b; [by apply IH|done].
Qed.
Definition getters : list (heap -> scope -> res (str * bool)) :=
  [get_func_name; get_method_name; get_method_receiver; get_type_name; get_struct_name; get_interface_name].
Definition found_alike (ws ws' : list str) (r r' : res (str * bool)) : Prop :=
  exists js b, r = Ok (pick ws js, b) /\ r' = Ok (pick ws' js, b).
Lemma getters_alike ws ws' h1 h2 sc sc' ls ls' : sc_kind sc = sc_kind sc' -> scope_nodes h1 sc ls -> scope_nodes h2 sc' ls' ->
  Forall2 (fun l l' => both ws ws' (text_of h1 (Some l)) (text_of h2 (Some l')) /\ kind_of h1 (Some l) = kind_of h2 (Some l')) ls ls' ->
  forall get, In get getters -> found_alike ws ws' (get h1 sc) (get h2 sc').
Proof.
  intros Ek SN SN' F.
  set (RA := fun x y : str * bool => both ws ws' (fst x) (fst y) /\ snd x = snd y).
  assert (Fin : forall r r', RA r r' -> found_alike ws ws' (Ok r) (Ok r')).
  { intros [x b] [y b'] [(js & Ex & Ey) E]. cbn [fst snd] in *. exists js, b. by rewrite Ex, Ey, E. }
  assert (Z0 : RA ([], false) ([], false)) by (split; [apply both_nil|done]).
  assert (None_ : found_alike ws ws' (Ok ([], false)) (Ok ([], false))) by (by apply Fin).
  assert (Lu : forall K, found_alike ws ws' (get_last_until h1 K sc) (get_last_until h2 K sc')).
  { intros K. unfold get_last_until. rewrite (scan_nodes h1 sc ls _ _ SN), (scan_nodes h2 sc' ls' _ _ SN'). cbn [res_bind]. apply Fin.
    eapply (scan_list_rel RA); [exact F| |done]. intros l l' a a' [T K'] _. unfold last_until. cbn [fst snd]. rewrite K'. by split. }
  assert (Gf : found_alike ws ws' (get_func_name h1 sc) (get_func_name h2 sc')).
  { unfold get_func_name. rewrite Ek. destruct (negb _); [done|]. rewrite (scan_nodes h1 sc ls _ _ SN), (scan_nodes h2 sc' ls' _ _ SN'). cbn [res_bind]. apply Fin.
    eapply (scan_list_rel RA); [exact F| |done]. intros l l' a a' [T K'] Ra. rewrite K'. by destruct (kind_eqb _ _). }
  assert (Gt : found_alike ws ws' (get_type_name h1 sc) (get_type_name h2 sc')) by (unfold get_type_name; rewrite Ek; by destruct (negb _)).
  assert (Gr : found_alike ws ws' (get_method_receiver h1 sc) (get_method_receiver h2 sc')) by (unfold get_method_receiver; rewrite Ek; by destruct (negb _)).
  assert (Gk : forall K, found_alike ws ws' (get_kinded_name K h1 sc) (get_kinded_name K h2 sc')).
  { intros K. unfold get_kinded_name. rewrite Ek. destruct (negb _); [done|]. rewrite (scan_nodes h1 sc ls _ _ SN), (scan_nodes h2 sc' ls' _ _ SN'). cbn [res_bind].
    destruct Gt as (js & b & -> & ->). cbn [res_bind fst].
    match goal with |- found_alike _ _ (Ok (_, ?x)) (Ok (_, ?y)) => assert (Q : x = y) end.
    { eapply (scan_list_rel eq); [exact F| |done]. intros l l' a a' [_ K'] _. rewrite K'. by split. }
    rewrite Q. by eexists _, _. }
  intros get Hg. repeat (destruct Hg as [<-|Hg]; [try done; try (by apply Gk)|]); [|destruct Hg].
  unfold get_method_name. rewrite Ek. destruct (negb _); [done|]. destruct Gr as (js & b & -> & ->). cbn [res_bind snd]. destruct (negb b); [done|]. by apply Lu.
Qed.
Theorem C72_getters : forall ord h ord' h' startLine s ts ws h1 scs h2 scs', any_order ord -> SpecNode.wf h -> any_order ord' -> SpecNode.wf h' ->
  tokens s ts -> Forall2 interchangeable (tok_texts ts) ws ->
  parse_scope ord h startLine s = Ok (h1, scs) -> parse_scope ord' h' startLine (concat ws) = Ok (h2, scs') ->
  Forall2 (fun sc sc' => forall get, In get getters -> found_alike (tok_texts ts) ws (get h1 sc) (get h2 sc')) scs scs'.
Proof.
  intros ord h ord' h' n s ts ws h1 scs h2 scs' O W O' W' T F E E'.
  destruct (parses_total ord h n s O W) as [vs P], (parses_total ord' h' n (concat ws) O' W') as [vs' P'].
  pose proof (C72_parse ord h ord' h' n s ts ws vs vs' O W O' W' T F P P') as A.
  destruct P as (h1b & scsb & Eb & V), P' as (h2b & scsb' & Eb' & V'). rewrite E in Eb. injection Eb as <- <-. rewrite E' in Eb'. injection Eb' as <- <-. clear -A V V'.
  revert scs scs' V V'. induction A as [|v v' vs vs' [A1 A2] A IH]; intros scs scs' V V'; inversion V as [|sc ? scs1 ? Pv V1]; subst; inversion V' as [|sc' ? scs1' ? Pv' V1']; subst; constructor; [|by apply IH].
  destruct Pv as (cur & C & Hd & ->), Pv' as (cur' & C' & Hd' & ->). cbn [fst snd] in A1, A2. injection A1 as _ Ak. cbn [scope_kind_of] in Ak.
  intros get Hg. eapply (getters_alike _ _ _ _ _ _ cur cur'); [done|split; [by symmetry|by exists []]|split; [by symmetry|by exists []]| |done].
  change (Forall2 (node_alike (tok_texts ts) ws) (pay h1 <$> cur) (pay h2 <$> cur')) in A2. rewrite Forall2_fmap in A2.
  eapply Forall2_impl; [exact A2|]. intros l l' (_ & K & js & T1 & T2). split; [by exists js|exact K].
Qed.
(** Renaming one word to another everywhere in a file. *)
Definition rename (old new t : str) : str := if bool_decide (t = old) then new else t.
Theorem C72_rename_everywhere : forall ord h ord' h' startLine s ts old new vs vs', any_order ord -> SpecNode.wf h -> any_order ord' -> SpecNode.wf h' ->
  plain_word old -> plain_word new -> kind_new old = kind_new new -> (forall k, begins k old <-> begins k new) -> tokens s ts ->
  let ws := map (rename old new) (tok_texts ts) in
  parses_to ord h startLine s vs -> parses_to ord' h' startLine (concat ws) vs' ->
  Forall2 (view_alike (tok_texts ts) ws) vs vs'.
Proof.
  intros ord h ord' h' n s ts old new vs vs' O W O' W' Po Pn K B T ws P P'. refine (C72_parse ord h ord' h' n s ts ws vs vs' O W O' W' T _ P P').
  unfold ws. clear -Po Pn K B. assert (Q : forall ts : list str, Forall2 interchangeable ts (map (rename old new) ts)).
  { intros l. induction l as [|t l IH]; [constructor|]. cbn [map]. constructor; [|done]. unfold rename. destruct (bool_decide_reflect (t = old)) as [->|]; [by apply ic_word|constructor]. }
  apply Q.
Qed.

(** The hypotheses are met: a function with a string and a comment, all of which
    are exchanged; the same names are found, exchanged. *)
Definition ex_src : str := $"func f(x T) { return " ++ [c_dq] ++ $"a" ++ [c_dq] ++ $" // {" ++ [c_nl] ++ $"}" ++ [c_nl].
Definition ex_new (t : str) : str :=
  if bool_decide (t = $"f") then $"serve" else if bool_decide (t = $"T") then $"pkg.Type" else
  if bool_decide (t = [c_dq] ++ $"a" ++ [c_dq]) then [c_dq] ++ $"func g() {" ++ [c_dq] else
  if bool_decide (t = $"// {") then $"// } type U struct" else t.
Example ex_C72 : exists ts, tokens ex_src ts /\ Forall2 interchangeable (tok_texts ts) (map ex_new (tok_texts ts)) /\
  concat (map ex_new (tok_texts ts)) = $"func serve(x pkg.Type) { return " ++ [c_dq] ++ $"func g() {" ++ [c_dq] ++ $" // } type U struct" ++ [c_nl] ++ $"}" ++ [c_nl].
Proof.
  assert (Tx : exists ts, tokens ex_src ts /\ tok_texts ts = [$"func"; $" "; $"f"; $"("; $"x"; $" "; $"T"; $")"; $" "; $"{"; $" "; $"return"; $" "; [c_dq] ++ $"a" ++ [c_dq]; $" "; $"// {"; [c_nl]; $"}"; [c_nl]]).
  { eexists. split; [eapply (tokens_of _ ex_src 19); [vm_compute; reflexivity|vm_compute; repeat split; lia]|vm_compute; reflexivity]. }
  destruct Tx as (ts & T & E). exists ts. rewrite E. split; [exact T|]. split; [|vm_compute; reflexivity].
  assert (NB : forall a b k, (forall k, k ∈ scope_keywords -> ~ k `prefix_of` a) -> (forall k, k ∈ scope_keywords -> ~ k `prefix_of` b) -> begins k a <-> begins k b).
  { intros a b k Na Nb. split; intros [Hk P]; exfalso; [by apply (Na k)|by apply (Nb k)]. }
  assert (Wd : forall a, plain_word a -> new_scope_kind a = SUnknown -> forall b, plain_word b -> new_scope_kind b = SUnknown -> kind_new a = kind_new b -> interchangeable a b).
  { intros a Pa Na b Pb Nb K. rewrite C19_no_scope_keyword in Na, Nb. apply ic_word; try done. intros k. by apply NB. }
  cbn [map]. repeat (apply Forall2_cons; split; [try (apply ic_same)|]); try (apply Forall2_nil; exact I).
  - apply Wd; [by apply plain_check|reflexivity|by apply plain_check|reflexivity|reflexivity].
  - apply Wd; [by apply plain_check|reflexivity|by apply plain_check|reflexivity|reflexivity].
  - apply (ic_delim DString); [discriminate|..|reflexivity].
    + apply go_string_whole; [repeat (constructor; [discriminate|discriminate|]); constructor|discriminate].
    + apply (go_string_whole $"func g() {"); [repeat (constructor; [discriminate|discriminate|]); constructor|discriminate].
  - apply (ic_line $" {" $" } type U struct"); [..|reflexivity]; eapply bool_decide_unpack; vm_compute; exact I.
Qed.
(** Literals as Go has them are interchangeable. *)
Theorem C72_literals :
  (forall b b', go_body b -> go_body b' -> last b <> Some c_bs -> last b' <> Some c_bs -> count_nl b = count_nl b' ->
     interchangeable ([c_dq] ++ b ++ [c_dq]) ([c_dq] ++ b' ++ [c_dq])) /\
  (forall b b', c_bq ∉ b -> c_bq ∉ b' -> count_nl b = count_nl b' -> interchangeable ([c_bq] ++ b ++ [c_bq]) ([c_bq] ++ b' ++ [c_bq])) /\
  (forall b b', absent $"*/" b -> absent $"*/" b' -> head b <> Some "/"%char -> head b' <> Some "/"%char -> count_nl b = count_nl b' ->
     interchangeable ($"/*" ++ b ++ $"*/") ($"/*" ++ b' ++ $"*/")).
Proof.
  split; [|split].
  - intros b b' G G' L L' E. apply (ic_delim DString); [done|by apply go_string_whole|by apply go_string_whole|]. by rewrite !count_nl_app, E.
  - intros b b' G G' E. apply (ic_delim DRaw); [done|by apply raw_string_whole|by apply raw_string_whole|]. by rewrite !count_nl_app, E.
  - intros b b' A A' H H' E. apply (ic_delim DBlock); [done|by apply block_comment_whole|by apply block_comment_whole|]. rewrite !(count_nl_app $"/*"), !count_nl_app, E. reflexivity.
Qed.
(** The condition on words is needed: a name that begins with a keyword starts a
    scope at the beginning of a line. *)
Theorem C72_any_word_refuted :
  let src w := $"func f() {" ++ [c_nl] ++ w ++ $" = 1" ++ [c_nl] ++ $"}" ++ [c_nl] in
  kind_new $"x" = kind_new $"variable" /\ scope_lines (src $"x") = [1%Z] /\ scope_lines (src $"variable") = [1%Z; 2%Z].
Proof. vm_compute. repeat split. Qed.
