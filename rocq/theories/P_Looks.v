(** C76: asts that look like a file of the grammar, however they were made. *)
From Verif Require Import SpecLooks SpecGo SpecMerge SpecEdit SpecAst NodeProofs NodeInv NodeChain NodeOps NodeNew NodeIter NodeCopy NodeHist NodeFinal ResetSpec Scope Ast SpecScope SpecText SpecLex LexSpecProofs P_Node P_Scope P_Ast P_Get P_Text P_Lex P_Local P_Edit P_Rename P_Merge P_Spell GoProofs GoLayout GoKinds GoFunc GoType GoBridge GoGet GoCheck P_Go LocalProofs.

Lemma item_spelling i : decl_ok (fst i) -> shape_text (item_shape i) = item_text i.
Proof. destruct i as [d k]. intros Ok. unfold shape_text, item_shape, item_text. cbn [fst snd]. by rewrite !spelling_app, decl_spelling. Qed.
Lemma shapes_text is : file_ok is -> concat (map shape_text (map item_shape is)) = file_text is.
Proof. intros Ok. unfold file_text. rewrite map_map. f_equal. induction Ok as [|i is Oi Ok IH]; [done|]. cbn [map]. by rewrite item_spelling, IH. Qed.
Lemma viewed_looks h sc v : viewed h sc v -> looks_like h sc (shape v).
Proof.
  intros (cur & C & Hd & ->). exists cur. split; [split; [done|by exists []]|]. split; [done|]. unfold shape. cbn [snd]. by rewrite map_map.
Qed.
Lemma looks_nodes h scs ss : looks h scs ss -> exists lss, all_nodes h (map Some scs) lss /\ map (text_at h) lss = map shape_text ss.
Proof.
  intros L. induction L as [|sc s scs ss (ls & SN & Ks & Sh) _ (lss & A & T)]; [exists []; split; [constructor|done]|].
  exists (ls :: lss). cbn [map]. split; [constructor; [by exists sc|done]|]. rewrite T. f_equal. unfold shape_text, text_at. rewrite <- Sh. unfold spelling. by rewrite map_map.
Qed.
Lemma looks_save h scs ss : looks h scs ss -> save_text h (map Some scs) = Ok (concat (map shape_text ss)).
Proof. intros L. destruct (looks_nodes h scs ss L) as (lss & A & T). by rewrite (save_text_spec h _ lss A), T. Qed.

(** ** Whatever made the ast *)
(** A parsed file looks like its declarations. *)
Theorem C76_parsed : forall ord h is h' scs, any_order ord -> SpecNode.wf h -> file_ok is ->
  parse_scope ord h 0 (file_text is) = Ok (h', scs) -> looks h' scs (map item_shape is).
Proof.
  intros ord h is h' scs O W F E. destruct (C59_parse_total ord h 0 (file_text is) O W) as [vs P]. pose proof P as (h2 & scs2 & E2 & V). rewrite E in E2. injection E2 as <- <-.
  destruct (C75_parse ord h is vs O W F P) as [<- _]. clear P. unfold looks. change (Forall2 (looks_like h') scs (shape <$> vs)). rewrite Forall2_fmap_r.
  eapply Forall2_impl; [exact V|]. intros sc v. apply viewed_looks.
Qed.
(** If scopes look like the declarations of a file - parsed, edited, put together or
    made from nothing - then Save writes that file, the getters name its
    declarations, and reading it back gives scopes that look the same. *)
Theorem C76_saved : forall h scs is, file_ok is -> looks h scs (map item_shape is) ->
  save_text h (map Some scs) = Ok (file_text is) /\
  Forall2 (fun i sc => answers h sc (fst i)) is scs /\
  forall ord h1 h2 scs2, any_order ord -> SpecNode.wf h1 -> parse_scope ord h1 0 (file_text is) = Ok (h2, scs2) -> looks h2 scs2 (map item_shape is).
Proof.
  intros h scs is F L. split; [|split].
  - rewrite (looks_save _ _ _ L). by rewrite shapes_text.
  - unfold looks in L. revert L. change (map item_shape is) with (item_shape <$> is). rewrite Forall2_fmap_r. intros L.
    induction L as [|sc [d k] scs is (ls & SN & Ks & Sh) _ IH]; [constructor|]. apply Forall_cons in F as [Hok F]. constructor; [|by apply IH].
    by apply (scope_answers h sc d k ls).
  - intros ord h1 h2 scs2 O W E. by apply (C76_parsed ord h1).
Qed.
(** Different files do not look alike: what the scopes show determines the text. *)
Theorem C76_determined : forall h scs is js, file_ok is -> file_ok js -> looks h scs (map item_shape is) -> looks h scs (map item_shape js) -> file_text is = file_text js.
Proof. intros h scs is js F1 F2 L1 L2. apply looks_save in L1, L2. rewrite L1 in L2. rewrite !shapes_text in L2 by done. by injection L2. Qed.

(** ** Putting together *)
Theorem C76_select : forall h scs ss (sel : list nat), looks h scs ss -> Forall (fun i => i < length scs) sel ->
  exists scs' ss', map Some scs' = map (fun i => scs !! i) sel /\ map Some ss' = map (fun i => ss !! i) sel /\ looks h scs' ss'.
Proof.
  intros h scs ss sel L F. induction F as [|i sel Hi _ (scs' & ss' & E1 & E2 & L')]; [exists [], []; split; [done|]; split; [done|constructor]|].
  destruct (lookup_lt_is_Some_2 scs i Hi) as [sc Esc]. destruct (Forall2_lookup_l _ _ _ _ _ L Esc) as (s & Es & Ls).
  exists (sc :: scs'), (s :: ss'). cbn [map]. rewrite E1, E2, Esc, Es. split; [done|]. split; [done|]. by constructor.
Qed.
Lemma looks_frame h h' scs ss : length h <= length h' -> (forall l, valid h l -> h' !! l = h !! l) -> looks h scs ss -> looks h' scs ss.
Proof.
  intros Ll Fr L. eapply Forall2_impl; [exact L|]. intros sc s (ls & (Hd & b & C) & Ks & Sh).
  assert (Fc : forall l, l ∈ b ++ ls -> h' !! l = h !! l) by (intros l Hl; apply Fr; by eapply valid_chain).
  exists ls. split; [split; [done|exists b]; apply (seg_frame h); [done| |done]; intros l Hl; apply nodes_same_links; by apply Fc|]. split; [done|]. rewrite <- Sh.
  apply map_ext_in. intros l Hl%elem_of_list_In. unfold shows. assert (E : h' !! l = h !! l) by (apply Fc, elem_of_app; by right). unfold text_of, kind_of. by rewrite !(field_ext _ _ h' h l) by done.
Qed.
(** Parsing another file leaves what was there, so the scopes of both can be used. *)
Theorem C76_add : forall ord h scs ss is h' scs', any_order ord -> SpecNode.wf h -> looks h scs ss -> file_ok is ->
  parse_scope ord h 0 (file_text is) = Ok (h', scs') -> looks h' (scs ++ scs') (ss ++ map item_shape is).
Proof.
  intros ord h scs ss is h' scs' O W L F E. apply Forall2_app; [|by apply (C76_parsed ord h)].
  destruct (parse_all_frame ord h [file_text is] h' [scs'] O W) as (_ & Ll & Fr); [by econstructor; [|constructor]|]. by apply (looks_frame h).
Qed.

(** ** Editing *)
Lemma document_looks h scs ds : document h (map Some scs) ds -> looks h scs (shapes h scs ds).
Proof.
  intros (_ & F & _). revert ds F. induction scs as [|sc scs IH]; intros ds F.
  - cbn [map] in F. apply Forall2_nil_inv_l in F as ->. constructor.
  - cbn [map] in F. apply Forall2_cons_inv_l in F as (s & ds' & (sc' & Es & Hd & _ & C) & F & ->). assert (sc' = sc) as -> by congruence.
    unfold shapes. cbn [zip_with]. constructor; [|by apply IH]. exists (snd s). split; [|done]. split; [done|by exists (fst s)].
Qed.
Lemma looks_det h scs ss ss' : looks h scs ss -> looks h scs ss' -> Forall (fun sc => sc_node sc <> None) scs -> ss' = ss.
Proof.
  intros L. revert ss'. induction L as [|sc s scs ss (ls & (Hd & b & C) & Ks & Sh) _ IH]; intros ss' L' N; [by apply Forall2_nil_inv_l in L'|].
  apply Forall2_cons_inv_l in L' as (s' & ss2 & (ls' & (Hd' & b' & C') & Ks' & Sh') & L' & ->). apply Forall_cons in N as [N1 N2]. rewrite (IH ss2 L' N2). f_equal.
  assert (ls' = ls) as ->. 2: { destruct s, s'. cbn [fst snd] in *. congruence. }
  clear IH L' Sh Sh'. destruct ls as [|x ls]; [done|]. destruct ls' as [|y ls']; [by rewrite Hd' in N1|]. cbn [head] in *. assert (y = x) as -> by congruence.
  pose proof (chain_unique h _ _ x C C' ltac:(apply elem_of_app; right; by left) ltac:(apply elem_of_app; right; by left)) as Eq.
  apply chain_NoDup in C. apply chain_NoDup in C'. clear -Eq C C'. revert b' Eq C'. induction b as [|a b IH]; intros [|a' b'] Eq C'.
  - cbn [app] in Eq. congruence.
  - exfalso. cbn [app] in Eq, C'. assert (x = a') by congruence. subst a'. apply NoDup_cons in C' as [C' _]. apply C', elem_of_app. right. by left.
  - exfalso. cbn [app] in Eq, C. assert (x = a) by congruence. subst a. apply NoDup_cons in C as [C _]. apply C, elem_of_app. right. by left.
  - cbn [app] in *. apply NoDup_cons in C as [_ C]. apply NoDup_cons in C' as [_ C']. apply (IH C b'); [congruence|done].
Qed.
Lemma document_rooted h scs ds : document h (map Some scs) ds -> Forall (fun sc => sc_node sc <> None) scs /\ length scs = length ds.
Proof.
  intros (_ & F & _). split; [|by rewrite <- (Forall2_length _ _ _ F), map_length]. revert ds F. induction scs as [|sc scs IH]; intros ds F; [constructor|].
  cbn [map] in F. apply Forall2_cons_inv_l in F as (s & ds' & (sc' & Es & Hd & Ne & C) & F & ->). constructor; [|by apply (IH ds')]. assert (sc' = sc) as -> by congruence.
  rewrite Hd. by destruct (snd s).
Qed.
(** On chains of their own, scopes look in one way only. *)
Lemma document_shapes h scs ds ss : document h (map Some scs) ds -> looks h scs ss -> ss = shapes h scs ds.
Proof. intros D L. destruct (document_rooted h scs ds D) as [N _]. by apply (looks_det h scs _ _ (document_looks h scs ds D) L). Qed.
Lemma shapes_split h S1 sc S2 A s B : length S1 = length A ->
  shapes h (S1 ++ sc :: S2) (A ++ s :: B) = shapes h S1 A ++ (scope_kind_of (Some sc), map (shows h) (snd s)) :: shapes h S2 B.
Proof. intros L. unfold shapes. by rewrite zip_with_app. Qed.
Lemma shapes_ext h h' scs ds : (forall x, x ∈ nodes_of ds -> shows h' x = shows h x) -> shapes h' scs ds = shapes h scs ds.
Proof.
  revert scs. induction ds as [|s ds IH]; intros [|sc scs] H; try done. unfold shapes in *. cbn [zip_with]. f_equal.
  - f_equal. apply map_ext_in. intros x Hx. apply H. rewrite nodes_of_cons. apply elem_of_app. left. apply elem_of_app. right. by apply elem_of_list_In.
  - apply IH. intros x Hx. apply H. rewrite nodes_of_cons. apply elem_of_app. by right.
Qed.
Lemma shows_payload h h' x : same_payload h h' -> shows h' x = shows h x.
Proof. intros [_ P]. destruct (P (Some x)) as (_ & Pt & Pk). unfold shows. congruence. Qed.
Lemma document_chain h scs A s B : document h scs (A ++ s :: B) -> chain h (fst s ++ snd s).
Proof. intros (_ & F & _). apply Forall2_app_inv_r in F as (a & c & _ & F & _). by apply Forall2_cons_inv_r in F as (o & d & (sc & _ & _ & _ & Cd) & _ & _). Qed.
Lemma here_others h scs A b xs n ys B x : document h scs (A ++ (b, xs ++ n :: ys) :: B) -> x ∈ nodes_of A \/ x ∈ nodes_of B \/ x ∈ xs \/ x ∈ ys -> x <> n.
Proof.
  intros D Hx. pose proof (document_chain _ _ _ _ _ D) as C. cbn [fst snd] in C.
  assert (Hn : n ∈ fst (b, xs ++ n :: ys) ++ snd (b, xs ++ n :: ys)) by members.
  destruct Hx as [Hx|[Hx|Hx]]; [apply (other_scopes _ _ _ _ _ n x D Hn), elem_of_app; by left|apply (other_scopes _ _ _ _ _ n x D Hn), elem_of_app; by right|].
  apply chain_NoDup in C. rewrite app_assoc in C. apply NoDup_app in C as (_ & C1 & C2). apply NoDup_cons in C2 as [C2 _]. intros ->. destruct Hx as [Hx|Hx]; [|done].
  apply (C1 n); [apply elem_of_app; by right|by left].
Qed.
Lemma map_shows_ext h h' ls : (forall x, x ∈ ls -> shows h' x = shows h x) -> map (shows h') ls = map (shows h) ls.
Proof. intros H. apply map_ext_in. intros x Hx%elem_of_list_In. by apply H. Qed.

Lemma edited_shapes h h' S1 sc S2 A b zs B ws : length S1 = length A -> (forall x, x ∈ nodes_of A \/ x ∈ nodes_of B -> shows h' x = shows h x) -> map (shows h') zs = ws ->
  shapes h' (S1 ++ sc :: S2) (A ++ (b, zs) :: B) = shapes h S1 A ++ (scope_kind_of (Some sc), ws) :: shapes h S2 B.
Proof.
  intros L H <-. rewrite shapes_split by done. cbn [snd]. rewrite (shapes_ext h h' S1 A) by (intros x Hx; apply H; by left). by rewrite (shapes_ext h h' S2 B) by (intros x Hx; apply H; by right).
Qed.
Lemma map_shows_mid h h' xs n ys t : (forall x, x ∈ xs \/ x ∈ ys -> shows h' x = shows h x) -> shows h' n = t ->
  map (shows h') (xs ++ n :: ys) = map (shows h) xs ++ t :: map (shows h) ys.
Proof. intros H <-. rewrite map_app. cbn [map]. rewrite (map_shows_ext h h' xs) by (intros x Hx; apply H; by left). by rewrite (map_shows_ext h h' ys) by (intros x Hx; apply H; by right). Qed.
(** What one call does to what is seen: SetText and SetKind change one token, ... *)
Theorem C76_set_text : forall h S1 sc S2 A b xs n ys B t, length S1 = length A -> document h (map Some (S1 ++ sc :: S2)) (A ++ (b, xs ++ n :: ys) :: B) ->
  exists h', exec h (OSetText (Some n) t) = Ok (h', []) /\ document h' (map Some (S1 ++ sc :: S2)) (A ++ (b, xs ++ n :: ys) :: B) /\
    shapes h' (S1 ++ sc :: S2) (A ++ (b, xs ++ n :: ys) :: B) =
    shapes h S1 A ++ (scope_kind_of (Some sc), map (shows h) xs ++ (t, kind_of h (Some n)) :: map (shows h) ys) :: shapes h S2 B.
Proof.
  intros h S1 sc S2 A b xs n ys B t Ln D. destruct (C65_edit h _ A _ B _ _ _ D (ed_set_text h _ b xs n ys t)) as (h' & rs & E & D' & _).
  cbn [exec] in E. assert (h' = set_text h (Some n) t) as -> by congruence. assert (rs = []) as -> by congruence. eexists. split; [reflexivity|]. split; [exact D'|].
  assert (Vn : valid h n) by (eapply valid_chain; [exact (document_chain _ _ _ _ _ D)|members]).
  assert (O : forall x, x <> n -> shows (set_text h (Some n) t) x = shows h x) by (intros x Nx; unfold shows; by rewrite kind_set_text, text_set_text, decide_False).
  pose proof (fun x => here_others _ _ _ _ _ _ _ _ x D) as Hx. apply edited_shapes; [done|intros x [Hi|Hi]; apply O, Hx; auto|]. apply map_shows_mid; [intros x [Hi|Hi]; apply O, Hx; auto|].
  unfold shows. by rewrite kind_set_text, text_set_text, decide_True.
Qed.
Theorem C76_set_kind : forall h S1 sc S2 A b xs n ys B k, length S1 = length A -> document h (map Some (S1 ++ sc :: S2)) (A ++ (b, xs ++ n :: ys) :: B) ->
  exists h', exec h (OSetKind (Some n) k) = Ok (h', []) /\ document h' (map Some (S1 ++ sc :: S2)) (A ++ (b, xs ++ n :: ys) :: B) /\
    shapes h' (S1 ++ sc :: S2) (A ++ (b, xs ++ n :: ys) :: B) =
    shapes h S1 A ++ (scope_kind_of (Some sc), map (shows h) xs ++ (text_of h (Some n), k) :: map (shows h) ys) :: shapes h S2 B.
Proof.
  intros h S1 sc S2 A b xs n ys B k Ln D. destruct (C65_edit h _ A _ B _ _ _ D (ed_set_kind h _ b xs n ys k)) as (h' & rs & E & D' & _).
  cbn [exec] in E. assert (h' = set_kind h (Some n) k) as -> by congruence. assert (rs = []) as -> by congruence. eexists. split; [reflexivity|]. split; [exact D'|].
  assert (Vn : valid h n) by (eapply valid_chain; [exact (document_chain _ _ _ _ _ D)|members]).
  assert (O : forall x, x <> n -> shows (set_kind h (Some n) k) x = shows h x) by (intros x Nx; unfold shows; by rewrite text_set_kind, kind_set_kind, decide_False).
  pose proof (fun x => here_others _ _ _ _ _ _ _ _ x D) as Hx. apply edited_shapes; [done|intros x [Hi|Hi]; apply O, Hx; auto|]. apply map_shows_mid; [intros x [Hi|Hi]; apply O, Hx; auto|].
  unfold shows. by rewrite text_set_kind, kind_set_kind, decide_True.
Qed.
(** ... TakeNext drops one, ... *)
Theorem C76_take_next : forall h S1 sc S2 A b xs n m ys B, length S1 = length A -> document h (map Some (S1 ++ sc :: S2)) (A ++ (b, xs ++ n :: m :: ys) :: B) ->
  exists h', exec h (OTakeNext (Some n)) = Ok (h', [Some m]) /\ document h' (map Some (S1 ++ sc :: S2)) (A ++ (b, xs ++ n :: ys) :: B) /\
    shapes h' (S1 ++ sc :: S2) (A ++ (b, xs ++ n :: ys) :: B) =
    shapes h S1 A ++ (scope_kind_of (Some sc), map (shows h) xs ++ shows h n :: map (shows h) ys) :: shapes h S2 B.
Proof.
  intros h S1 sc S2 A b xs n m ys B Ln D. pose proof D as (W & _). destruct (C65_edit h _ A _ B _ _ _ D (ed_take_next h _ b xs n m ys)) as (h' & rs & E & D' & _).
  exists h'. pose proof (C04_take_next h n m (b ++ xs) ys W) as Tk. rewrite <- app_assoc in Tk. specialize (Tk (document_chain _ _ _ _ _ D)).
  pose proof (same_payload_take_next h (Some n)) as P. cbn [exec] in E |- *. destruct (take_next h (Some n)) as [h2 r]. destruct Tk as (_ & _ & -> & _). cbn [fst snd] in *.
  assert (h2 = h') as -> by congruence. split; [done|]. split; [done|]. apply edited_shapes; [done|intros; by apply shows_payload|]. apply map_shows_mid; [intros; by apply shows_payload|by apply shows_payload].
Qed.
(** ... and InsertNext of a new node adds one. *)
Lemma document_valid h scs ds x : document h scs ds -> x ∈ nodes_of ds -> valid h x.
Proof.
  intros (W & F & N) Hx. unfold nodes_of in Hx. apply elem_of_list_In, in_concat in Hx as (l & Hl & Hx). apply elem_of_list_In in Hx. apply elem_of_list_In, elem_of_list_fmap in Hl as (s & -> & Hs).
  apply elem_of_list_lookup in Hs as [i Hs]. destruct (Forall2_lookup_r _ _ _ _ _ F Hs) as (o & _ & sc & _ & _ & _ & C). by eapply valid_chain.
Qed.
Lemma shows_prefix h h' x : h `prefix_of` h' -> valid h x -> shows h' x = shows h x.
Proof. intros [t ->] V. unfold shows, text_of, kind_of. by rewrite !(field_ext _ _ (h ++ t) h x) by (by apply lookup_app_l). Qed.
Theorem C76_insert : forall h S1 sc S2 A b xs n ys B line t k, length S1 = length A -> document h (map Some (S1 ++ sc :: S2)) (A ++ (b, xs ++ n :: ys) :: B) ->
  exists h1 m h' r, exec h (ONewNode line t [k]) = Ok (h1, [Some m]) /\ exec h1 (OInsertNext (Some n) (Some m)) = Ok (h', r) /\
    valid h1 n /\ valid h1 m /\
    document h' (map Some (S1 ++ sc :: S2)) (A ++ (b, xs ++ n :: m :: ys) :: B) /\
    shapes h' (S1 ++ sc :: S2) (A ++ (b, xs ++ n :: m :: ys) :: B) =
    shapes h S1 A ++ (scope_kind_of (Some sc), map (shows h) xs ++ shows h n :: (t, k) :: map (shows h) ys) :: shapes h S2 B.
Proof.
  intros h S1 sc S2 A b xs n ys B line t k Ln D. pose proof D as (W & _). pose proof (new_node_spec h line t [k]) as Nw. pose proof (wf_new_node h line t [k] W) as W1.
  destruct (new_node h line t [k]) as [h1 m] eqn:En. destruct Nw as (Em & Pf & Cm & _ & _ & Tm & Km). cbn [fst] in W1.
  pose proof (document_extend h h1 _ _ D W1 Pf) as D1.
  assert (Fresh : m ∉ nodes_of (A ++ (b, xs ++ n :: ys) :: B)). { intros Hm. apply (document_valid h _ _ _ D) in Hm. unfold valid in Hm. lia. }
  assert (Ed : edit h1 (fun x => x ∉ nodes_of (A ++ (b, xs ++ n :: ys) :: B)) (OInsertNext (Some n) (Some m)) (b, xs ++ n :: ys) (b, xs ++ n :: m :: ys)
      (text_at h1 xs ++ text_of h1 (Some n) ++ text_of h1 (Some m) ++ text_at h1 ys)).
  { apply (ed_insert_next _ _ b xs n ys [] m []); [done|]. intros x Hx. cbn [app] in Hx. apply elem_of_list_singleton in Hx as ->. exact Fresh. }
  destruct (C65_edit h1 _ A _ B _ _ _ D1 Ed) as (h' & rs & E & D' & _).
  assert (Vn : valid h n) by (eapply document_valid; [exact D|]; rewrite nodes_of_app, nodes_of_cons; members).
  exists h1, m, h', rs. split; [cbn [exec]; by rewrite En|]. split; [done|]. split; [destruct Pf as [u ->]; unfold valid in *; rewrite app_length; lia|]. split; [eapply valid_chain; [exact Cm|by left]|].
  split; [done|]. assert (P : same_payload h1 h').
  { pose proof (same_payload_insert_next h1 (Some n) (Some m)) as P. cbn [exec] in E. destruct (insert_next h1 (Some n) (Some m)) as [h2 r]. cbn [fst snd] in *. by assert (h2 = h') as <- by congruence. }
  assert (Sh : forall x, x ∈ nodes_of (A ++ (b, xs ++ n :: ys) :: B) -> shows h' x = shows h x).
  { intros x Hx. rewrite (shows_payload h1 h' x P). apply (shows_prefix h h1 x Pf). by apply (document_valid h _ _ _ D). }
  assert (In_ : forall x, x ∈ nodes_of A \/ x ∈ nodes_of B \/ x ∈ xs \/ x = n \/ x ∈ ys -> x ∈ nodes_of (A ++ (b, xs ++ n :: ys) :: B)) by (intros x Hx; rewrite nodes_of_app, nodes_of_cons; members).
  apply edited_shapes; [done|intros x [Hi|Hi]; apply Sh, In_; auto|]. rewrite map_app. cbn [map]. rewrite (map_shows_ext h h' xs) by (intros x Hi; apply Sh, In_; auto). rewrite (map_shows_ext h h' ys) by (intros x Hi; apply Sh, In_; auto). rewrite (Sh n) by (apply In_; auto).
  rewrite (shows_payload h1 h' m P). unfold shows at 3. by rewrite Tm, Km.
Qed.

(** Adding a scope with a new node. *)
Lemma document_new h scs ds h1 m sc : document h scs ds -> SpecNode.wf h1 -> h `prefix_of` h1 -> m = length h -> chain h1 [m] -> sc_node sc = Some m ->
  document h1 (scs ++ [Some sc]) (ds ++ [([], [m])]).
Proof.
  intros D W1 Pf Em Cm Es. destruct (document_extend h h1 scs ds D W1 Pf) as (_ & F1 & N1). split; [done|]. split.
  - apply Forall2_app; [done|]. constructor; [|constructor]. exists sc. done.
  - rewrite nodes_of_app. apply NoDup_app. split; [done|]. split; [|apply NoDup_singleton]. intros x Hx Hm. apply (document_valid h _ _ x D) in Hx. cbn in Hm. apply elem_of_list_singleton in Hm as ->. unfold valid in Hx. lia.
Qed.
Theorem C76_new_scope : forall h scs ds line t k K, document h (map Some scs) ds ->
  exists h1 m, exec h (ONewNode line t [k]) = Ok (h1, [Some m]) /\ document h1 (map Some (scs ++ [new_scope line K (Some m)])) (ds ++ [([], [m])]) /\
    shapes h1 (scs ++ [new_scope line K (Some m)]) (ds ++ [([], [m])]) = shapes h scs ds ++ [(K, [(t, k)])].
Proof.
  intros h scs ds line t k K D. pose proof D as (W & _). pose proof (new_node_spec h line t [k]) as Nw. pose proof (wf_new_node h line t [k] W) as W1. cbn [exec].
  destruct (new_node h line t [k]) as [h1 m]. destruct Nw as (Em & Pf & Cm & _ & _ & Tm & Km). cbn [fst] in W1. exists h1, m. split; [done|].
  split; [rewrite map_app; by apply (document_new h)|]. rewrite shapes_split by (by apply (document_rooted h)). f_equal.
  - apply shapes_ext. intros x Hx. apply shows_prefix; [done|]. by apply (document_valid h _ _ _ D).
  - unfold shapes. cbn [zip_with snd map]. f_equal. unfold shows. by rewrite Tm, Km.
Qed.

(** *** Every ast can be made *)
Lemma hist_app h ops h1 ops' h2 : hist h ops h1 -> hist h1 ops' h2 -> hist h (ops ++ ops') h2.
Proof. induction 1 as [|h o h1 rs ops h1' Lg E _ IH]; intros H; [done|]. cbn [app]. econstructor; [done|done|by apply IH]. Qed.
Lemma hist_one h o h' rs : Forall (live h) (args o) -> exec h o = Ok (h', rs) -> hist h [o] h'.
Proof. intros L E. econstructor; [exact L|exact E|constructor]. Qed.
Lemma live_one h n : valid h n -> Forall (live h) [Some n]. Proof. intros V. by repeat constructor. Qed.
Lemma shapes_inj h h' S1 sc S2 A b zs B ws : length S1 = length A -> shapes h' (S1 ++ sc :: S2) (A ++ (b, zs) :: B) = shapes h S1 A ++ (scope_kind_of (Some sc), ws) :: shapes h S2 B ->
  shapes h' S1 A = shapes h S1 A /\ map (shows h') zs = ws /\ shapes h' S2 B = shapes h S2 B.
Proof.
  intros L E. rewrite shapes_split in E by done. cbn [snd] in E. apply app_inj_1 in E as [E1 E2]; [|unfold shapes; by rewrite !zip_with_length]. split; [done|].
  assert (E3 : map (shows h') zs = ws) by congruence. split; [done|]. congruence.
Qed.
Lemma clear_scope ys : forall h S1 sc S2 A b n B, length S1 = length A -> document h (map Some (S1 ++ sc :: S2)) (A ++ (b, n :: ys) :: B) ->
  exists ops h', hist h ops h' /\ document h' (map Some (S1 ++ sc :: S2)) (A ++ (b, [n]) :: B) /\
    shapes h' (S1 ++ sc :: S2) (A ++ (b, [n]) :: B) = shapes h S1 A ++ (scope_kind_of (Some sc), [shows h n]) :: shapes h S2 B.
Proof.
  induction ys as [|m ys IH]; intros h S1 sc S2 A b n B L D.
  - exists [], h. split; [constructor|]. split; [done|]. by rewrite shapes_split.
  - destruct (C76_take_next h S1 sc S2 A b [] n m ys B L D) as (h1 & E & D1 & Sh1). cbn [app map] in *. destruct (shapes_inj h h1 S1 sc S2 A b (n :: ys) B _ L Sh1) as (A1 & N1 & B1). cbn [map] in N1.
    destruct (IH h1 S1 sc S2 A b n B L D1) as (ops & h2 & H & D2 & Sh2). exists (OTakeNext (Some n) :: ops), h2.
    split; [|split; [done|]].
    + econstructor; [|exact E|exact H]. apply live_one. eapply document_valid; [exact D|]. rewrite nodes_of_app, nodes_of_cons. members.
    + rewrite Sh2, A1, B1. by assert (shows h1 n = shows h n) as -> by congruence.
Qed.
Lemma fill_scope ts : forall h S1 sc S2 A b n B, length S1 = length A -> document h (map Some (S1 ++ sc :: S2)) (A ++ (b, [n]) :: B) ->
  exists ops h' ys, hist h ops h' /\ document h' (map Some (S1 ++ sc :: S2)) (A ++ (b, n :: ys) :: B) /\
    shapes h' (S1 ++ sc :: S2) (A ++ (b, n :: ys) :: B) = shapes h S1 A ++ (scope_kind_of (Some sc), shows h n :: ts) :: shapes h S2 B.
Proof.
  induction ts as [|[t k] ts IH]; intros h S1 sc S2 A b n B L D.
  - exists [], h, []. split; [constructor|]. split; [done|]. by rewrite shapes_split.
  - destruct (IH h S1 sc S2 A b n B L D) as (ops & h1 & ys & H & D1 & Sh1). destruct (shapes_inj h h1 S1 sc S2 A b (n :: ys) B _ L Sh1) as (A1 & N1 & B1). cbn [map] in N1.
    destruct (C76_insert h1 S1 sc S2 A b [] n ys B 0%Z t k L D1) as (h2 & m & h3 & r & E1 & E2 & Vn & Vm & D2 & Sh2). cbn [app map] in *.
    exists (ops ++ [ONewNode 0%Z t [k]; OInsertNext (Some n) (Some m)]), h3, (m :: ys). split; [|split; [done|]].
    + eapply hist_app; [exact H|]. econstructor; [constructor|exact E1|]. apply (hist_one _ _ _ r); [|exact E2]. cbn [args]. by repeat constructor.
    + rewrite Sh2, A1, B1. assert (shows h1 n = shows h n) as -> by congruence. by assert (map (shows h1) ys = ts) as -> by congruence.
Qed.
(** The tokens of one scope can be changed into any others. *)
Theorem C76_rewrite : forall h S1 sc S2 ds s1 s s2 t ts, document h (map Some (S1 ++ sc :: S2)) ds -> looks h (S1 ++ sc :: S2) (s1 ++ s :: s2) -> length S1 = length s1 ->
  exists ops h' ds', hist h ops h' /\ document h' (map Some (S1 ++ sc :: S2)) ds' /\ looks h' (S1 ++ sc :: S2) (s1 ++ (fst s, t :: ts) :: s2).
Proof.
  intros h S1 sc S2 ds s1 s s2 t ts D Lk Ln. destruct (document_rooted _ _ _ D) as [_ Ld]. pose proof (document_shapes _ _ _ _ D Lk) as Es.
  assert (exists A b n ys B, ds = A ++ (b, n :: ys) :: B /\ length A = length S1) as (A & b & n & ys & B & -> & La).
  { pose proof (list_lookup_middle S1 S2 sc (length S1) eq_refl) as Hi. destruct (lookup_lt_is_Some_2 ds (length S1)) as [[b zs] Hs]; [rewrite <- Ld; eapply lookup_lt_Some; exact Hi|].
    pose proof Hs as Hs'. apply elem_of_list_split_length in Hs as (A & B & -> & El). destruct D as (_ & F & _).
    destruct (Forall2_lookup_r _ _ _ _ _ F Hs') as (o & _ & sc' & _ & _ & Ne & _). cbn [snd] in Ne. destruct zs as [|n ys]; [done|]. by exists A, b, n, ys, B. }
  symmetry in La. rewrite shapes_split in Es by done. cbn [snd] in Es. apply app_inj_1 in Es as [E1 E2]; [|unfold shapes; rewrite zip_with_length; lia].
  assert (E3 : s = (scope_kind_of (Some sc), map (shows h) (n :: ys))) by congruence. assert (E4 : s2 = shapes h S2 B) by congruence. clear E2. subst s1 s s2. cbn [fst].
  destruct (clear_scope ys h S1 sc S2 A b n B La D) as (o1 & h1 & H1 & D1 & Sh1). destruct (shapes_inj h h1 S1 sc S2 A b [n] B _ La Sh1) as (A1 & _ & B1).
  destruct t as [t k]. destruct (C76_set_text h1 S1 sc S2 A b [] n [] B t La D1) as (h2 & X2 & D2 & Sh2). destruct (shapes_inj h1 h2 S1 sc S2 A b [n] B _ La Sh2) as (A2 & N2 & B2). cbn [map app] in N2.
  destruct (C76_set_kind h2 S1 sc S2 A b [] n [] B k La D2) as (h3 & X3 & D3 & Sh3). destruct (shapes_inj h2 h3 S1 sc S2 A b [n] B _ La Sh3) as (A3 & N3 & B3). cbn [map app] in N3.
  destruct (fill_scope ts h3 S1 sc S2 A b n B La D3) as (o4 & h4 & ys' & H4 & D4 & Sh4).
  assert (V : forall g, document g (map Some (S1 ++ sc :: S2)) (A ++ (b, [n]) :: B) -> valid g n) by (intros g Dg; eapply document_valid; [exact Dg|]; rewrite nodes_of_app, nodes_of_cons; members).
  eexists (o1 ++ _ :: _ :: o4), h4, (A ++ (b, n :: ys') :: B). split; [|split; [exact D4|]].
  - eapply hist_app; [exact H1|]. econstructor; [|exact X2|]; [apply live_one; by apply V|]. econstructor; [|exact X3|exact H4]. apply live_one; by apply V.
  - pose proof (document_looks _ _ _ D4) as Lk4. rewrite Sh4, A3, A2, A1, B3, B2, B1 in Lk4.
    assert (shows h3 n = (t, k)) as E5; [|by rewrite E5 in Lk4].
    assert (text_of h2 (Some n) = t) as Et by (unfold shows in N2; congruence). by rewrite Et in N3; congruence.
Qed.
(** All scopes, whatever they were before. *)
Theorem C76_reach : forall h scs ds ss ss', document h (map Some scs) ds -> looks h scs ss -> Forall2 (fun s s' => fst s' = fst s /\ snd s' <> []) ss ss' ->
  exists ops h' ds', hist h ops h' /\ document h' (map Some scs) ds' /\ looks h' scs ss'.
Proof.
  intros h scs ds ss ss' D L F.
  assert (G : forall s2 s2', Forall2 (fun s s' => fst s' = fst s /\ snd s' <> []) s2 s2' -> forall h ds s1 S1 S2, length S1 = length s1 -> document h (map Some (S1 ++ S2)) ds -> looks h (S1 ++ S2) (s1 ++ s2) ->
    exists ops h' ds', hist h ops h' /\ document h' (map Some (S1 ++ S2)) ds' /\ looks h' (S1 ++ S2) (s1 ++ s2')); [|by apply (G ss ss' F h ds [] [] scs)].
  clear. intros s2 s2' F. induction F as [|s s' s2 s2' [Ek Ne] F IH]; intros h ds s1 S1 S2 Ln D L.
  - exists [], h, ds. split; [constructor|done].
  - assert (exists sc S2', S2 = sc :: S2') as (sc & S2' & ->).
    { destruct S2 as [|sc S2']; [|by exists sc, S2']. exfalso. apply Forall2_length in L. rewrite !app_length in L. cbn [length] in L. lia. }
    destruct s' as [K [|t ts]]; [done|]. cbn [fst] in Ek. subst K. destruct (C76_rewrite h S1 sc S2' ds s1 s s2 t ts D L Ln) as (o1 & h1 & d1 & H1 & D1 & L1).
    assert (Ea : S1 ++ sc :: S2' = (S1 ++ [sc]) ++ S2') by (by rewrite <- app_assoc). rewrite Ea in *.
    destruct (IH h1 d1 (s1 ++ [(fst s, t :: ts)]) (S1 ++ [sc]) S2') as (o2 & h2 & d2 & H2 & D2 & L2); [rewrite !app_length; cbn [length]; lia|done|by rewrite <- (app_assoc s1)|].
    exists (o1 ++ o2), h2, d2. split; [by eapply hist_app|]. split; [done|]. by rewrite <- (app_assoc s1) in L2.
Qed.
(** And from nothing. *)
Theorem C76_make : forall ss h, SpecNode.wf h -> Forall (fun s => snd s <> []) ss ->
  exists ops h' scs ds, hist h ops h' /\ document h' (map Some scs) ds /\ looks h' scs ss.
Proof.
  intros ss h W N.
  assert (G : exists ops h' scs ds, hist h ops h' /\ document h' (map Some scs) ds /\ looks h' scs (map (fun s => (fst s, [($"x", KRaw)])) ss)).
  { clear N. induction ss as [|s ss IH] using rev_ind.
    - exists [], h, [], []. split; [constructor|]. split; [|constructor]. split; [done|]. split; [constructor|constructor].
    - destruct IH as (ops & h1 & scs & ds & H & D & L). destruct (C76_new_scope h1 scs ds 0%Z $"x" KRaw (fst s) D) as (h2 & m & E & D2 & Sh).
      exists (ops ++ [ONewNode 0%Z $"x" [KRaw]]), h2, (scs ++ [new_scope 0 (fst s) (Some m)]), (ds ++ [([], [m])]). split; [eapply hist_app; [exact H|]; apply (hist_one _ _ _ [Some m]); [constructor|exact E]|].
      split; [done|]. apply document_looks in D2. rewrite Sh, <- (document_shapes _ _ _ _ D L) in D2. by rewrite map_app. }
  destruct G as (o1 & h1 & scs & ds & H1 & D1 & L1). destruct (C76_reach h1 scs ds _ ss D1 L1) as (o2 & h2 & d2 & H2 & D2 & L2).
  { change (Forall2 (fun s s' => fst s' = fst s /\ snd s' <> []) ((fun s => (fst s, [($"x", KRaw)])) <$> ss) ss). rewrite Forall2_fmap_l. clear -N. induction N as [|s ss Hs _ IH]; [constructor|]. by constructor. }
  exists (o1 ++ o2), h2, scs, d2. split; [by eapply hist_app|done].
Qed.

(** ** Files *)
Lemma item_nonempty i : snd (item_shape i) <> [].
Proof. destruct i as [[] k]; discriminate. Qed.
(** Every file of the grammar can be generated: some calls make scopes that look
    like it, are on chains of their own, and are saved as it. *)
Theorem C76_generate : forall is h, SpecNode.wf h -> file_ok is ->
  exists ops h' scs ds, hist h ops h' /\ document h' (map Some scs) ds /\ looks h' scs (map item_shape is) /\
    save_text h' (map Some scs) = Ok (file_text is) /\ Forall2 (fun i sc => answers h' sc (fst i)) is scs.
Proof.
  intros is h W F. destruct (C76_make (map item_shape is) h W) as (ops & h' & scs & ds & H & D & L).
  { apply Forall_forall. intros s Hs. apply elem_of_list_fmap in Hs as (i & -> & _). apply item_nonempty. }
  exists ops, h', scs, ds. destruct (C76_saved h' scs is F L) as (S1 & S2 & _). done.
Qed.
(** Every file can be edited into any other with the same kinds of declarations. *)
Theorem C76_transform : forall ord h is js h1 scs, any_order ord -> SpecNode.wf h -> file_ok is -> file_ok js ->
  map (fun i => decl_kind (fst i)) is = map (fun j => decl_kind (fst j)) js ->
  parse_scope ord h 0 (file_text is) = Ok (h1, scs) ->
  exists ops h2 ds, hist h1 ops h2 /\ document h2 (map Some scs) ds /\ looks h2 scs (map item_shape js) /\ save_text h2 (map Some scs) = Ok (file_text js).
Proof.
  intros ord h is js h1 scs O W Fi Fj Ek E. destruct (C65_parsed ord h 0 _ h1 scs O W E) as (lss & D). pose proof (C76_parsed ord h is h1 scs O W Fi E) as L.
  destruct (C76_reach h1 scs _ _ (map item_shape js) D L) as (ops & h2 & ds & H & D2 & L2).
  { clear -Ek. change (Forall2 (fun s s' => fst s' = fst s /\ snd s' <> []) (item_shape <$> is) (item_shape <$> js)). rewrite Forall2_fmap.
    revert js Ek. induction is as [|i is IH]; intros [|j js] Ek; try done; constructor; cbn [map] in Ek; [|apply IH; congruence]. split; [|apply item_nonempty]. unfold item_shape. cbn [fst]. congruence. }
  exists ops, h2, ds. split; [done|]. split; [done|]. split; [done|]. by apply (C76_saved h2 scs js Fj L2).
Qed.
Lemma renamed_after new d : declares_name d -> exists xs ys w K, decl_after d = xs ++ (w, K) :: ys /\ decl_after (renamed new d) = xs ++ (new, K) :: ys.
Proof.
  intros N. destruct d as [recv name tps ps r body note|name tps rows note|name tps rows note|name tps alias t rs note|name tps ps r note|code|kw code|c|c]; try done; cbn [renamed decl_after].
  - exists (lx $"func" :: lx $" " :: recv_out receiver_pen recv). eexists _, name, KFuncName. cbn [app]. split; reflexivity.
  - exists [lx $"type"; lx $" "]. unfold type_head. cbn [app]. eexists _, name, KTypeName. split; reflexivity.
  - exists [lx $"type"; lx $" "]. unfold type_head. cbn [app]. eexists _, name, KTypeName. split; reflexivity.
  - exists [lx $"type"; lx $" "]. unfold type_head. cbn [app]. eexists _, name, KTypeName. split; reflexivity.
  - exists [lx $"type"; lx $" "]. unfold type_head. cbn [app]. eexists _, name, KTypeName. split; reflexivity.
Qed.
Lemma renamed_ok new d : decl_ok d -> ident new -> decl_ok (renamed new d).
Proof. destruct d; cbn [renamed decl_ok]; intros H N; intuition. Qed.
Lemma renamed_kind new d : decl_kind (renamed new d) = decl_kind d.
Proof. by destruct d. Qed.
(** One SetText changes one token: whatever it stands for - a function, type,
    parameter, field or method name, a word in a body -, if what results is again a
    file of the grammar, the ast looks like that file. *)
Theorem C76_retext : forall h scs ds A i i' B xs w k ys w', document h (map Some scs) ds -> looks h scs (map item_shape (A ++ i :: B)) ->
  item_shape i = (decl_kind (fst i'), xs ++ (w, k) :: ys) -> item_shape i' = (decl_kind (fst i'), xs ++ (w', k) :: ys) ->
  exists n h', exec h (OSetText (Some n) w') = Ok (h', []) /\ document h' (map Some scs) ds /\ looks h' scs (map item_shape (A ++ i' :: B)).
Proof.
  intros h scs ds A i i' B xs w k ys w' D L Ei Ei'. pose proof (document_shapes _ _ _ _ D L) as Es. pose proof (Forall2_length _ _ _ L) as Ll. destruct (document_rooted _ _ _ D) as [_ Ld].
  rewrite map_length, app_length in Ll. cbn [length] in Ll.
  assert (exists S1 sc S2, scs = S1 ++ sc :: S2 /\ length S1 = length A) as (S1 & sc & S2 & -> & L1).
  { destruct (lookup_lt_is_Some_2 scs (length A)) as [sc Hs]; [lia|]. apply elem_of_list_split_length in Hs as (S1 & S2 & -> & El). by exists S1, sc, S2. }
  assert (exists D1 s D2, ds = D1 ++ s :: D2 /\ length D1 = length A) as (D1 & [b zs] & D2 & -> & L2).
  { destruct (lookup_lt_is_Some_2 ds (length A)) as [s Hs]; [lia|]. apply elem_of_list_split_length in Hs as (S1' & S2' & -> & El). by exists S1', s, S2'. }
  rewrite shapes_split in Es by congruence. rewrite map_app in Es. cbn [map snd] in Es. apply app_inj_1 in Es as [E1 E2]; [|unfold shapes; rewrite zip_with_length, map_length; lia].
  assert (E3 : item_shape i = (scope_kind_of (Some sc), map (shows h) zs)) by congruence. assert (E4 : map item_shape B = shapes h S2 D2) by congruence. clear E2. rewrite Ei in E3.
  assert (E5 : map (shows h) zs = xs ++ (w, k) :: ys) by congruence. assert (E6 : scope_kind_of (Some sc) = decl_kind (fst i')) by congruence. clear E3.
  apply map_eq_app in E5 as (z1 & [|n z2] & -> & X1 & X2); [done|]. cbn [map] in X2. assert (Kn : kind_of h (Some n) = k) by (unfold shows in X2; congruence). assert (X3 : map (shows h) z2 = ys) by congruence.
  destruct (C76_set_text h S1 sc S2 D1 b z1 n z2 D2 w' ltac:(congruence) D) as (h' & E & D' & Sh). exists n, h'. split; [done|]. split; [done|].
  apply document_looks in D'. rewrite Sh, X1, X3, Kn, E6, <- Ei', <- E1, <- E4 in D'. by rewrite map_app.
Qed.
Theorem C76_rename : forall h scs ds A d k B new, document h (map Some scs) ds -> file_ok (A ++ (d, k) :: B) -> declares_name d -> ident new ->
  looks h scs (map item_shape (A ++ (d, k) :: B)) ->
  exists n h', exec h (OSetText (Some n) new) = Ok (h', []) /\ document h' (map Some scs) ds /\ file_ok (A ++ (renamed new d, k) :: B) /\ looks h' scs (map item_shape (A ++ (renamed new d, k) :: B)) /\
    save_text h' (map Some scs) = Ok (file_text (A ++ (renamed new d, k) :: B)).
Proof.
  intros h scs ds A d k B new D F N I L. destruct (renamed_after new d N) as (xs & ys & w & K & E1 & E2).
  destruct (C76_retext h scs ds A (d, k) (renamed new d, k) B xs w K (ys ++ blank k) new D L) as (n & h' & E & D' & L').
  { unfold item_shape. cbn [fst snd]. by rewrite E1, renamed_kind, <- app_assoc. }
  { unfold item_shape. cbn [fst snd]. by rewrite E2, <- app_assoc. }
  exists n, h'. assert (F' : file_ok (A ++ (renamed new d, k) :: B)).
  { unfold file_ok in *. rewrite Forall_app, Forall_cons in *. destruct F as (F1 & F2 & F3). split; [done|]. split; [|done]. by apply renamed_ok. }
  split; [done|]. split; [done|]. split; [done|]. split; [done|]. by apply (C76_saved h' scs _ F' L').
Qed.

(** ** Asts and files *)
Lemma looks_package h ls k name : map (shows h) ls = snd (item_shape (package_decl name, k)) -> kind_new name = KRaw ->
  exists l, named_by h ls l /\ text_of h (Some l) = name /\ forall l', named_by h ls l' -> l' = l.
Proof.
  intros Sh Kn. unfold item_shape, package_decl in Sh. cbn [fst snd decl_after decl_src app] in Sh.
  destruct ls as [|l0 [|l1 [|l2 r]]]; try discriminate Sh. cbn [map] in Sh.
  assert (S0 : shows h l0 = lx $"package") by congruence. assert (S1 : shows h l1 = lx $" ") by congruence. assert (S2 : shows h l2 = lx name) by congruence. clear Sh. unfold shows, lx in *.
  assert (K0 : kind_of h (Some l0) = KPackage) by (change KPackage with (kind_new $"package"); congruence).
  assert (K1 : kind_of h (Some l1) <> KRaw) by (assert (kind_of h (Some l1) = kind_new $" ") as -> by congruence; vm_compute; discriminate).
  assert (K2 : kind_of h (Some l2) = KRaw) by congruence. assert (T2 : text_of h (Some l2) = name) by congruence. clear S0 S1 S2.
  exists l2. split; [|split; [done|]].
  - exists [l0; l1], r. split; [done|]. split; [done|]. split; [exists l0; split; [by left|done]|]. intros us x vs y ws E Kx.
    destruct us as [|u0 [|u1 us]]; cbn [app] in E.
    + assert (E' : [l1] = vs ++ y :: ws) by congruence. destruct vs as [|v vs]; cbn [app] in E'; [assert (y = l1) as -> by congruence; done|]. destruct vs; discriminate E'.
    + destruct vs; discriminate E.
    + assert (E' : [] = us ++ x :: vs ++ y :: ws) by congruence. destruct us; discriminate E'.
  - intros l' (xs & ys & E & Kl & (x & Hx & _) & Nx). destruct xs as [|x0 [|x1 [|x2 xs]]]; cbn [app] in E.
    + by apply elem_of_nil in Hx.
    + exfalso. apply K1. assert (l' = l1) as -> by congruence. done.
    + congruence.
    + exfalso. assert (x0 = l0) as -> by congruence. assert (x1 = l1) as -> by congruence. assert (x2 = l2) as -> by congruence. by apply (Nx [] l0 [l1] l2 xs eq_refl K0).
Qed.
Lemma looks_kinds h scs is : looks h scs (map item_shape is) -> map (fun sc => sc_kind sc) scs = map (fun i => decl_kind (fst i)) is.
Proof.
  intros L. unfold looks in L. revert L. change (map item_shape is) with (item_shape <$> is). rewrite Forall2_fmap_r. intros L. induction L as [|sc i scs is (ls & _ & K & _) _ IH]; [done|]. cbn [map]. rewrite IH. f_equal. exact K.
Qed.
(** Package returns the name of the package. *)
Theorem C76_package : forall h m a scs is name, elems m (a_scope a) = map Some scs -> looks h scs (map item_shape is) -> declares_package is name -> kind_new name = KRaw ->
  ast_package h m a = Ok (inl name).
Proof.
  intros h m a scs is name Ea L (A & k & B & -> & NA) Kn. destruct (looks_nodes h scs _ L) as (lss & Al & _). pose proof (looks_kinds h scs _ L) as Ks. rewrite map_app in Ks. cbn [map fst decl_kind package_decl] in Ks.
  apply map_eq_app in Ks as (S1 & S2' & -> & K1 & K2). destruct S2' as [|sc S2]; [done|]. cbn [map] in K2. assert (Kc : sc_kind sc = $"package") by congruence. change ($"package") with SPackage in Kc. clear K2.
  assert (N1 : forall sc', sc' ∈ S1 -> sc_kind sc' <> SPackage).
  { intros sc' H' X. assert (SPackage ∈ map (fun i => decl_kind (fst i)) A) as H2 by (rewrite <- K1, <- X; apply elem_of_list_fmap; by exists sc'). apply elem_of_list_fmap in H2 as (i & Ei & Hi). rewrite Forall_forall in NA. by apply (NA i Hi). }
  destruct (C45_package h m a (map Some (S1 ++ sc :: S2)) lss Ea Al) as [[N _]|(scs1 & sc0 & scs2 & ls & nm & Es & N & K0 & SN & -> & C)].
  { exfalso. apply (N sc); [|done]. apply elem_of_list_fmap. exists sc. split; [done|]. apply elem_of_app. right. by left. }
  assert (sc0 = sc /\ length scs1 = length S1) as [-> Hl].
  { rewrite map_app in Es. cbn [map] in Es. clear -Es N K0 N1 Kc. revert S1 Es N1. induction scs1 as [|o scs1 IH]; intros [|s S1] Es N1; cbn [map app] in Es.
    - split; [congruence|done].
    - exfalso. assert (s = sc0) as -> by congruence. apply (N1 sc0); [by left|done].
    - exfalso. apply (N sc); [|done]. assert (o = Some sc) as -> by congruence. by left.
    - destruct (IH (fun sc' H' => N sc' ltac:(by right)) S1 ltac:(congruence) (fun sc' H' => N1 sc' ltac:(by right))) as [-> El]. split; [done|]. cbn [length]. by rewrite El. }
  assert (Sh : map (shows h) ls = snd (item_shape (package_decl name, k))).
  { assert (L2 : looks_like h sc (item_shape (package_decl name, k))).
    { unfold looks in L. rewrite map_app in L. cbn [map] in L. apply Forall2_app_inv in L as [_ L]; [by apply Forall2_cons in L as [L _]|]. rewrite map_length. rewrite <- (map_length (fun sc => sc_kind sc) S1), K1. by rewrite map_length. }
    destruct L2 as (ls' & SN' & Ks' & Sh'). pose proof (looks_det h [sc] [item_shape (package_decl name, k)] [(scope_kind_of (Some sc), map (shows h) ls)]) as Q.
    assert (Q1 : looks h [sc] [item_shape (package_decl name, k)]) by (constructor; [by exists ls'|constructor]). assert (Q2 : looks h [sc] [(scope_kind_of (Some sc), map (shows h) ls)]) by (constructor; [by exists ls|constructor]).
    assert (Nd : sc_node sc <> None). { destruct SN' as [-> _]. destruct ls'; [|done]. cbn [map] in Sh'. by pose proof (item_nonempty (package_decl name, k)) as X; rewrite <- Sh' in X. }
    specialize (Q Q1 Q2 ltac:(by constructor)). assert (Q3 : (scope_kind_of (Some sc), map (shows h) ls) = item_shape (package_decl name, k)) by congruence. by rewrite <- Q3. }
  destruct (looks_package h ls k name Sh Kn) as (l & Nl & Tl & U).
  destruct C as [(l' & Nl' & ->)|[Nn _]]; [|by destruct (Nn l)]. by rewrite (U l' Nl'), Tl.
Qed.
(** ParseAst of a file that is formatted as [file_text is]. *)
Theorem C76_open : forall e f ord spare h m file path buf is, any_order ord -> SpecNode.wf h -> go_file file path ->
  f path = Some buf -> en_can_open e path = true -> en_format e buf = Some (file_text is) -> file_ok is ->
  ((forall i, i ∈ is -> decl_kind (fst i) <> $"package") -> exists h', parse_ast e f ord spare h m file = Ok (h', m, inr ErrNoPackage)) /\
  ((exists i, i ∈ is /\ decl_kind (fst i) = $"package") ->
    exists h' m' a scs ds, parse_ast e f ord spare h m file = Ok (h', m', inl a) /\ elems m' (a_scope a) = map Some scs /\
      document h' (map Some scs) ds /\ looks h' scs (map item_shape is) /\
      forall name, declares_package is name -> kind_new name = KRaw -> ast_package h' m' a = Ok (inl name)).
Proof.
  intros e f ord spare h m file path buf is O W G Ef Eo Eb F. pose proof (C48_parse_ast e f ord spare h m file path O W G) as H. rewrite Ef, Eo, Eb in H.
  destruct H as (h' & scs & E & H). pose proof (C76_parsed ord h is h' scs O W F E) as L. pose proof (looks_kinds h' scs is L) as Ks.
  assert (Same : (exists i, i ∈ is /\ decl_kind (fst i) = $"package") <-> (exists sc, sc ∈ scs /\ sc_kind sc = SPackage)).
  { split.
    - intros (i & Hi & Ki). assert (SPackage ∈ map (fun sc => sc_kind sc) scs) as H2 by (rewrite Ks; apply elem_of_list_fmap; by exists i). apply elem_of_list_fmap in H2 as (sc & Es & Hs). by exists sc.
    - intros (sc & Hs & Es). assert (SPackage ∈ map (fun i => decl_kind (fst i)) is) as H2 by (rewrite <- Ks; apply elem_of_list_fmap; by exists sc). apply elem_of_list_fmap in H2 as (i & Ei & Hi). by exists i. }
  split; intros Hp.
  - exists h'. destruct H as [[_ H]|[X _]]; [done|]. apply Same in X as (i & Hi & Ki). by destruct (Hp i Hi).
  - apply Same in Hp as (sc & Hs & Es). destruct H as [[N _]|(_ & m' & a & Ep & _ & _ & Ea & _)]; [by destruct (N sc Hs)|].
    destruct (C65_parsed ord h 0 _ h' scs O W E) as (lss & D). exists h', m', a, scs, (map (pair []) lss). split; [done|]. split; [done|]. split; [done|]. split; [done|]. intros name Dp Kn. by apply (C76_package h' m' a scs is).
Qed.
(** Save of an ast that looks like a file, and opening it again. *)
Theorem C76_save_open : forall e f h m a file path autoImport scs is, elems m (a_scope a) = map Some scs -> go_file file path ->
  file_ok is -> is <> [] -> looks h scs (map item_shape is) ->
  let t := to_write e path autoImport (file_text is) in
  exists states f' err, ast_save e f h m a file autoImport = Ok (states, f', err) /\
    (en_mkdir e (en_dir e path) = true -> en_create e path = true -> length t <= en_write e path t -> err = None) /\
    (forall q, q <> path -> f' q = f q) /\
    (err = None -> f' path = Some t /\
      (* if the formatter finds the file in order, it is found as it was *)
      forall ord spare h1 m1, any_order ord -> SpecNode.wf h1 -> en_can_open e path = true -> en_format e t = Some (file_text is) ->
        (exists i, i ∈ is /\ decl_kind (fst i) = $"package") ->
        exists h2 m2 a2 scs2, parse_ast e f' ord spare h1 m1 file = Ok (h2, m2, inl a2) /\ elems m2 (a_scope a2) = map Some scs2 /\ looks h2 scs2 (map item_shape is)).
Proof.
  intros e f h m a file path ai scs is Ea G F Ne L t. destruct (looks_nodes h scs _ L) as (lss & Al & Tx).
  destruct (C46_save e f h m a file path ai (map Some scs) lss Ea Al G) as (st & f' & err & E & _ & H2 & H3 & H4). rewrite Tx, shapes_text in H2, H3 by done. fold t in H2, H3.
  assert (Nt : file_text is <> []).
  { destruct is as [|[d k] is]; [done|]. unfold file_text. cbn [map concat]. unfold item_text. cbn [fst snd]. destruct d as [| | | | | |kw code|c|c]; try discriminate; apply Forall_cons in F as [Hok _]; cbn [fst] in Hok.
    - destruct Hok as [Hk _]. intros X. assert (Nk : forall w, w ∈ [$"package"; $"import"; $"var"; $"const"] -> w <> []) by (apply (Forall_forall (fun kw => kw <> [])); in_names). apply (Nk kw Hk). by destruct kw.
    - destruct Hok as [X _]. intros Z. assert (c = []) as -> by (by destruct c). by destruct X as (b & X & _). }
  exists st, f', err. split; [done|]. split; [intros M C Lw; by apply H2|]. split; [done|]. intros Er. destruct (H3 Er) as [_ Ep]. split; [done|].
  intros ord spare h1 m1 O W1 Co Ft Hp. destruct (C76_open e f' ord spare h1 m1 file path t is O W1 G Ep Co Ft F) as [_ X]. destruct (X Hp) as (h2 & m2 & a2 & scs2 & ds & E2 & E3 & _ & E4 & _). by exists h2, m2, a2, scs2.
Qed.

(** ** Examples *)
(** The hypotheses are met by the file of C75, which declares package a and can be
    parsed; a function in it is renamed. *)
Example ex_C76_package : declares_package ex_file $"a" /\ kind_new $"a" = KRaw.
Proof. split; [|reflexivity]. exists [], 1, (tail ex_file). split; [|constructor]. vm_compute. reflexivity. Qed.
Example ex_C76 : file_ok ex_file /\ (exists h scs ds, document h (map Some scs) ds /\ looks h scs (map item_shape ex_file)) /\
  exists A d k B, ex_file = A ++ (d, k) :: B /\ declares_name d /\ A <> [] /\ B <> [].
Proof.
  split; [apply C75_file_ok|]. split.
  - destruct (C76_generate ex_file [] wf_nil C75_file_ok) as (ops & h & scs & ds & _ & D & L & _). by exists h, scs, ds.
  - exists (firstn 3 ex_file). eexists _, _, _. split; [unfold ex_file; cbn [firstn app]; reflexivity|]. done.
Qed.
(** Files that are not of the grammar: an ast may look one way and what it is saved
    as be read in another.  Two words without a space become one. *)
Theorem C76_any_tokens_refuted : exists h scs, looks h scs [($"var", [lx $"var"; lx $" "; lx $"x"; lx $"y"; lx [c_nl]])] /\
  forall h1 scs1, parse_scope src_ord [] 0 (shape_text ($"var", [lx $"var"; lx $" "; lx $"x"; lx $"y"; lx [c_nl]])) = Ok (h1, scs1) -> ~ looks h1 scs1 [($"var", [lx $"var"; lx $" "; lx $"x"; lx $"y"; lx [c_nl]])].
Proof.
  destruct (C76_make [($"var", [lx $"var"; lx $" "; lx $"x"; lx $"y"; lx [c_nl]])] [] wf_nil) as (ops & h & scs & ds & _ & _ & L); [by repeat constructor|].
  exists h, scs. split; [done|]. intros h1 scs1 E L1.
  assert (V : exists g sc ls, parse_scope src_ord [] 0 (shape_text ($"var", [lx $"var"; lx $" "; lx $"x"; lx $"y"; lx [c_nl]])) = Ok (g, [sc]) /\ sc_node sc = Some 0 /\ chain g ls /\ head ls = Some 0 /\ length ls = 4).
  { vm_compute. eexists _, _, [0; 1; 2; 3]. split; [reflexivity|]. split; [reflexivity|]. split; [|split; reflexivity]. vm_compute. repeat split; lia. }
  destruct V as (g & sc & ls & Eg & Nd & C & Hd & Ln). rewrite Eg in E. injection E as <- <-.
  clear L. revert L1 Eg. generalize (lx $"var") (lx $" ") (lx $"x") (lx $"y") (lx [c_nl]). intros a b c d e L1 _.
  assert (L2 : looks g [sc] [(scope_kind_of (Some sc), map (shows g) ls)]).
  { constructor; [|constructor]. exists ls. split; [split; [congruence|by exists []]|]. split; reflexivity. }
  pose proof (looks_det g [sc] _ _ L1 L2 ltac:(constructor; [congruence|constructor])) as Q.
  assert (Q2 : map (shows g) ls = [a; b; c; d; e]) by congruence. apply (f_equal length) in Q2. rewrite map_length, Ln in Q2. discriminate Q2.
Qed.
