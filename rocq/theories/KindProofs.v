(** Refining a scope whose first lexemes are known, exactly. *)
From Verif Require Export SpecKinds TypeText.

Notation cell := (loc * lexeme)%type.
Notation knd c := (snd (snd c)).
(** Skipping matched brackets. *)
Lemma skip_nested a b ks : a <> b -> nested a b ks -> forall us (s : st) p q c fuel Q, map (fun l => kind_of (s_heap s) (Some l)) us = ks -> nseg (s_heap s) p us q -> length us <= fuel -> (1 <= c)%Z ->
  wp (iterM (fuel - length us) (sk_step a b) q c) Q s -> wp (iterM fuel (sk_step a b) p c) Q s.
Proof.
  intros Nab.
  assert (One : forall u (s : st) c c' fuel Q, 1 <= fuel -> sk_step a b u c s = Ok (s, (c', true)) ->
    wp (iterM (fuel - 1) (sk_step a b) (next_of (s_heap s) (Some u)) c') Q s -> wp (iterM fuel (sk_step a b) (Some u) c) Q s).
  { intros u s c c' fuel Q L E H. apply step_iterM; [lia|]. unfold wp at 1. rewrite E. cbn [fst snd]. by replace (pred fuel) with (fuel - 1) by lia. }
  induction 1 as [|k ks N1 N2 Sq IH|ks ks' Sq IH Sq' IH']; intros us s p q c fuel Q Em Sg Lf Lc H.
  - apply map_eq_nil in Em as ->. cbn [NodeChain.nseg length] in *. rewrite Sg. by rewrite Nat.sub_0_r in H.
  - destruct us as [|u us]; [done|]. cbn [map] in Em. injection Em as Ek Em. destruct Sg as [-> Sg]. cbn [length] in *. apply (One _ _ c c); [lia| |].
    + unfold sk_step, bind, handle_hook, get_kind. cbn [fold_left res_bind]. rewrite Ek, (proj2 (kind_eqb_false _ _) N1), (proj2 (kind_eqb_false _ _) N2). done.
    + apply (IH us _ _ q); [done|done|lia|done|]. by replace (fuel - 1 - length us) with (fuel - S (length us)) by lia.
  - destruct us as [|u us]; [done|]. cbn [map] in Em. injection Em as Ek Em. destruct Sg as [-> Sg].
    apply map_eq_app in Em as (u1 & u2 & -> & E1 & E2). destruct u2 as [|r u2]; [done|]. cbn [map] in E2. injection E2 as Er E2.
    apply nseg_app in Sg as (m & S1 & S2). pose proof S2 as [-> S3]. cbn [length] in *. rewrite app_length in *. cbn [length] in *. apply (One _ _ c (c + 1)%Z); [lia| |].
    + unfold sk_step, bind, handle_hook, get_kind. cbn [fold_left res_bind]. rewrite Ek, (proj2 (kind_eqb_true _ _) eq_refl). done.
    + apply (IH u1 _ _ (Some r)); [done|done|lia|lia|]. apply (One _ _ (c + 1)%Z c); [lia| |].
      * unfold sk_step, bind, handle_hook, get_kind. cbn [fold_left res_bind]. rewrite Er, (proj2 (kind_eqb_false b a)), (proj2 (kind_eqb_true _ _) eq_refl) by done. replace (c + 1 - 1)%Z with c by lia.
        rewrite (proj2 (Z.eqb_neq c 0)) by lia. done.
      * apply (IH' u2 _ _ q); [done|done|lia|done|]. by replace (fuel - 1 - length u1 - 1 - length u2) with (fuel - S (length u1 + S (length u2))) by lia.
Qed.
Lemma curly_pure o us c q fuel (s : st) : nseg (s_heap s) (Some o) (o :: us ++ [c]) q -> nested KCurlyL KCurlyR (map (fun l => kind_of (s_heap s) (Some l)) us) ->
  kind_of (s_heap s) (Some o) = KCurlyL -> kind_of (s_heap s) (Some c) = KCurlyR -> length us + 2 <= fuel ->
  wp (curly_run fuel (Some o) []) (fun r s' => r = Some c /\ s' = s) s.
Proof.
  intros [_ Sg] Sq Ka Kc Lf. unfold curly_run, skip_nest. apply wp_bind, wp_get_kind. rewrite Ka. kred. apply wp_bind, wp_bind. unfold wp at 1, handle_hook. cbn [fold_left].
  apply wp_bind. unfold find_next. apply wp_bind. apply step_iterM; [lia|]. apply wp_bind. unfold wp at 1, handle_hook. cbn [fold_left]. apply wp_bind, wp_get_kind, wp_ret. rewrite Ka.
  cbn [fst snd]. change (find_decide [KCurlyL] opt0 KCurlyL (count_step KCurlyL (0, 0, 0)%Z)) with false. apply wp_ret. cbn [snd]. apply wp_get_next.
  apply nseg_app in Sg as (m & S1 & S2). apply wp_bind. change (wp (iterM fuel (sk_step KCurlyL KCurlyR) (next_of (s_heap s) (Some o)) 1%Z) (fun a0 s' => wp (ret a0.2) (fun r s'' => r = Some c /\ s'' = s) s') s).
  assert (Nlr : KCurlyL <> KCurlyR) by done. apply (skip_nested _ _ _ Nlr Sq us s _ m); [done|done|lia|lia|]. destruct S2 as [-> _]. apply step_iterM; [lia|]. unfold sk_step. apply wp_bind. unfold wp at 1, handle_hook. cbn [fold_left].
  apply wp_bind, wp_get_kind. rewrite Kc. kred. apply wp_ret. cbn [fst snd]. change (negb (1 - 1 =? 0)%Z) with false. by apply wp_ret.
Qed.
Section cells.
Context (h0 : heap) (ls : list loc) (W0 : SpecNode.wf h0) (C0 : chain h0 ls).
Let ND : NoDup ls := c_nd h0 ls C0.
Let Hval := c_val h0 ls C0.
Let Hout := c_out h0 ls W0 C0.
Notation from := (from ls).
Notation base := (base h0 ls).
Notation N i := (length ls - i).

(** The scope begins with the nodes and lexemes [C]; what comes after them has
    positions from [lo] on. *)
Record Kc (lo : nat) (C : list cell) (h : heap) : Prop := mkKc {
  kc_shows : Forall (fun c : cell => shows h (fst c) = snd c) C;
  kc_link : forall A c d B, C = A ++ c :: d :: B -> next_of h (Some (fst c)) = Some (fst d);
  kc_pos : Forall (fun c : cell => exists i, i < lo /\ ls !! i = Some (fst c)) C;
  kc_last : exists c i, last C = Some c /\ ls !! i = Some (fst c) /\ lo = S i;
  kc_head : head (map fst C) = head ls }.

Lemma kc_show lo C h c : Kc lo C h -> c ∈ C -> shows h (fst c) = snd c.
Proof. intros H Hc. pose proof (kc_shows _ _ _ H) as F. rewrite Forall_forall in F. by apply F. Qed.
Lemma kc_kind lo A l t k B h : Kc lo (A ++ (l, (t, k)) :: B) h -> kind_of h (Some l) = k.
Proof. intros H. assert (E : shows h l = (t, k)) by (apply (kc_show _ _ _ (l, (t, k)) H); apply elem_of_app; right; by left). by injection E. Qed.
Lemma kc_lt lo C h c : Kc lo C h -> c ∈ C -> exists i, i < lo /\ ls !! i = Some (fst c).
Proof. intros H Hc. pose proof (kc_pos _ _ _ H) as F. rewrite Forall_forall in F. by apply F. Qed.
Lemma kc_in lo C h c : Kc lo C h -> c ∈ C -> fst c ∈ ls.
Proof. intros H Hc. destruct (kc_lt _ _ _ _ H Hc) as (i & _ & E). by eapply elem_of_list_lookup_2. Qed.
Lemma kc_lo lo C h : Kc lo C h -> lo <= length ls.
Proof. intros H. destruct (kc_last _ _ _ H) as (c & i & _ & E & ->). apply lookup_lt_Some in E. lia. Qed.
Lemma kc_chain lo C h : base h -> Kc lo C h -> exists rest, chain h (map fst C ++ rest).
Proof.
  intros B H. destruct (base_chain h0 ls W0 C0 h B) as (cur & Cc & _ & Hd). rewrite <- (kc_head _ _ _ H) in Hd.
  assert (G : forall A B', C = A ++ B' -> A = [] \/ exists rest, cur = map fst A ++ rest).
  { intros A. induction A as [|c A IH] using rev_ind; intros B' E; [by left|]. right.
    destruct A as [|a A _] using rev_ind.
    - cbn [app] in E. rewrite E in Hd. cbn [map head app] in *. destruct cur as [|x cur]; [done|]. injection Hd as ->. by exists cur.
    - rewrite <- !app_assoc in E. cbn [app] in E. destruct (IH (c :: B')) as [Q|(rest & Er)]; [by rewrite <- app_assoc|by destruct A|].
      pose proof (kc_link _ _ _ H A a c B' E) as Nx. rewrite map_app in Er. cbn [map] in Er. rewrite <- app_assoc in Er. cbn [app] in Er. rewrite Er in Cc.
      rewrite (chain_next h _ _ _ Cc) in Nx. destruct rest as [|r rest]; [done|]. injection Nx as ->. exists rest.
      rewrite Er, !map_app, <- !app_assoc. done. }
  destruct (kc_last _ _ _ H) as (c & _ & Lc & _). destruct (G C []) as [->|(rest & E)]; [by rewrite app_nil_r|done|]. exists rest. by rewrite <- E.
Qed.
Lemma kc_nodup lo C h : base h -> Kc lo C h -> NoDup (map fst C).
Proof. intros B H. destruct (kc_chain lo C h B H) as (rest & Cc). apply chain_NoDup in Cc. by apply NoDup_app in Cc as (? & _ & _). Qed.
Lemma kc_notin lo A c B h x : base h -> Kc lo (A ++ c :: B) h -> x ∈ A \/ x ∈ B -> fst x <> fst c.
Proof.
  intros Bs H Hx E. apply kc_nodup in H; [|done]. rewrite map_app in H. cbn [map] in H. apply NoDup_app in H as (_ & H1 & H2). apply NoDup_cons in H2 as [H2 _].
  destruct Hx as [Hx|Hx]; apply (elem_of_list_fmap_1 fst) in Hx.
  - apply (H1 (fst x) Hx). rewrite E. by left.
  - apply H2. rewrite <- E. done.
Qed.

Lemma kc_at0 lo A c B h : Kc lo (A ++ c :: B) h -> kind_of h (Some (fst c)) = knd c.
Proof. destruct c as [l [t k]]. apply kc_kind. Qed.

(** Where a walk stands after [A] when [B] is still to come. *)
Definition cursor (h : heap) (A B : list cell) : ptr :=
  match B with c :: _ => Some (fst c) | [] => match last A with Some c => next_of h (Some (fst c)) | None => None end end.
Lemma cursor_next lo A c B h : Kc lo (A ++ c :: B) h -> next_of h (Some (fst c)) = cursor h (A ++ [c]) B.
Proof. intros H. unfold cursor. destruct B as [|d B]; [by rewrite last_snoc|]. by apply (kc_link _ _ _ H A c d B). Qed.
Lemma cursor_tail lo A h : base h -> Kc lo A h -> from lo (cursor h A []).
Proof.
  intros B H. unfold cursor. destruct (kc_last _ _ _ H) as (c & i & -> & E & ->). eapply base_next; [exact B|by apply from_at].
Qed.
Lemma kc_nseg lo B : forall A c h q, Kc lo (A ++ c :: B) h -> q = next_of h (fst <$> last (c :: B)) -> nseg h (Some (fst c)) (map fst (c :: B)) q.
Proof.
  induction B as [|d B IH]; intros A c h q H ->; cbn [map NodeChain.nseg]; (split; [done|]).
  - done.
  - rewrite (kc_link _ _ _ H A c d B eq_refl). apply (IH (A ++ [c]) d); [by rewrite <- app_assoc|]. reflexivity.
Qed.
(** A stretch of known nodes. *)
Lemma kc_stretch lo A S B h : Kc lo (A ++ S ++ B) h -> nseg h (cursor h A (S ++ B)) (map fst S) (cursor h (A ++ S) B).
Proof.
  revert A. induction S as [|c S IH]; intros A H.
  - cbn [app map NodeChain.nseg]. by rewrite app_nil_r.
  - cbn [app map NodeChain.nseg]. split; [done|]. cbn [app] in H. rewrite (cursor_next lo A c (S ++ B) h H).
    replace (A ++ c :: S) with ((A ++ [c]) ++ S) by (by rewrite <- app_assoc). apply IH. by rewrite <- app_assoc.
Qed.
Lemma kc_kinds lo A S B h : Kc lo (A ++ S ++ B) h -> map (fun l => kind_of h (Some l)) (map fst S) = map snd (map snd S).
Proof.
  intros H. rewrite !map_map. apply map_ext_in. intros c Hc. assert (E : shows h (fst c) = snd c).
  { apply (kc_show _ _ _ c H). rewrite !elem_of_app. right. left. by apply elem_of_list_In. }
  rewrite <- E. done.
Qed.
Lemma kc_texts lo A S B h : Kc lo (A ++ S ++ B) h -> map (fun l => text_of h (Some l)) (map fst S) = map fst (map snd S).
Proof.
  intros H. rewrite !map_map. apply map_ext_in. intros c Hc. assert (E : shows h (fst c) = snd c).
  { apply (kc_show _ _ _ c H). rewrite !elem_of_app. right. left. by apply elem_of_list_In. }
  rewrite <- E. done.
Qed.

(** ** Changes *)
Lemma kc_out lo C h c p : Kc lo C h -> c ∈ C -> from lo p -> p <> Some (fst c).
Proof.
  intros H Hc F ->. destruct (kc_lt _ _ _ _ H Hc) as (i & Li & E). destruct F as (j & Lj & Ej). assert (i = j) by (by eapply at_inj). lia.
Qed.
Lemma kc_set lo A l t k B h k' : base h -> Kc lo (A ++ (l, (t, k)) :: B) h -> k' ∈ refined ->
  base (set_kind h (Some l) k') /\ Kc lo (A ++ (l, (t, k')) :: B) (set_kind h (Some l) k').
Proof.
  intros Bs H R. set (C := A ++ (l, (t, k)) :: B) in *.
  assert (Hl : (l, (t, k)) ∈ C) by (apply elem_of_app; right; by left).
  assert (Il : l ∈ ls) by (apply (kc_in _ _ _ _ H Hl)).
  assert (Vl : valid h l) by (eapply base_valid; [exact Hval|exact Bs|done]).
  split.
  { apply elem_of_list_lookup in Il as (i & Ei). eapply base_set_kind; [exact Hval|exact Bs|by apply from_at|done]. }
  assert (Sh : forall x, x <> l -> shows (set_kind h (Some l) k') x = shows h x).
  { intros x Hx. unfold shows. rewrite kind_set_kind, text_set_kind by done. by rewrite decide_False. }
  assert (Mf : map fst (A ++ (l, (t, k')) :: B) = map fst C) by (unfold C; by rewrite !map_app).
  assert (Im : forall (P : loc -> Prop), Forall (fun c : cell => P (fst c)) C -> Forall (fun c : cell => P (fst c)) (A ++ (l, (t, k')) :: B)).
  { intros P. unfold C. rewrite !Forall_app, !Forall_cons. done. }
  constructor.
  - pose proof (kc_shows _ _ _ H) as F. unfold C in F. rewrite Forall_app, Forall_cons in *. destruct F as (F1 & F2 & F3). split; [|split].
    + rewrite Forall_forall in *. intros c Hc. rewrite Sh; [by apply F1|]. apply (kc_notin lo A (l, (t, k)) B h c Bs H). by left.
    + cbn [fst snd]. unfold shows. rewrite kind_set_kind, text_set_kind, decide_True by done. f_equal. by injection F2.
    + rewrite Forall_forall in *. intros c Hc. rewrite Sh; [by apply F3|]. apply (kc_notin lo A (l, (t, k)) B h c Bs H). by right.
  - intros A' c d B' E. rewrite (proj1 (links_set_kind _ _ _ _)).
    assert (E' : map fst C = map fst (A' ++ c :: d :: B')) by (by rewrite <- E).
    rewrite map_app in E'. cbn [map] in E'. apply map_eq_app in E' as (A2 & B2 & E2 & EA & EB). destruct B2 as [|c2 [|d2 B2]]; [done|done|].
    cbn [map] in EB. injection EB as <- <- _. by apply (kc_link _ _ _ H A2 c2 d2 B2).
  - apply (Im (fun l => exists i, i < lo /\ ls !! i = Some l)). apply (kc_pos _ _ _ H).
  - destruct (kc_last _ _ _ H) as (c & i & Lc & Ei & ->).
    assert (El : last (map fst (A ++ (l, (t, k')) :: B)) = Some (fst c)) by (rewrite Mf; transitivity (fst <$> last C); [apply fmap_last|by rewrite Lc]).
    rewrite fmap_last in El. destruct (last (A ++ (l, (t, k')) :: B)) as [c'|]; [|done]. injection El as El. exists c', i. by rewrite El.
  - rewrite Mf. apply (kc_head _ _ _ H).
Qed.
Lemma kc_frame lo C h h' : Kc lo C h -> (forall c, c ∈ C -> shows h' (fst c) = shows h (fst c)) ->
  (forall A c d B, C = A ++ c :: d :: B -> next_of h (Some (fst c)) = Some (fst d) -> next_of h' (Some (fst c)) = Some (fst d)) -> Kc lo C h'.
Proof.
  intros H Sh Lk. destruct H as [H1 H2 H3 H4 H5]. constructor; [|by intros; eapply Lk; eauto|done|done|done].
  rewrite Forall_forall in *. intros c Hc. rewrite Sh by done. by apply H1.
Qed.
Lemma kc_k lo C h p k : base h -> Kc lo C h -> from lo p -> Kc lo C (set_kind h p k).
Proof.
  intros B H F. destruct p as [a|]; [|done]. assert (Va : valid h a) by (exact (base_live h0 ls Hval h _ (Some a) B F)).
  apply (kc_frame lo C h); [done|..].
  - intros c Hc. unfold shows. rewrite kind_set_kind, text_set_kind by done. rewrite decide_False; [done|]. intros E. apply (kc_out lo C h c (Some a) H Hc F). congruence.
  - intros A c d B' _ <-. apply (proj1 (links_set_kind _ _ _ _)).
Qed.
Lemma kc_a lo C (h : heap) n i rest b h' b' : base h -> Kc lo C h -> ls !! i = Some n -> lo <= i -> Forall (from i) rest ->
  finish_combine KParamType (Some n :: rest) (mkSt h b) = Ok (mkSt h' b', tt) -> Kc lo C h'.
Proof.
  intros B H En Li F E.
  destruct (finish_base h0 ls ND Hval Hout h n i rest KParamType b B En F) as (h2 & E2 & B2 & Pay & Lk & Kn); [apply mem_kind_true; reflexivity|].
  rewrite E in E2. injection E2 as <- ->. apply (kc_frame lo C h); [done|..].
  - intros c Hc. assert (fst c <> n). { intros <-. destruct (kc_lt _ _ _ _ H Hc) as (j & Lj & Ej). assert (i = j) by (by eapply at_inj). lia. }
    unfold shows. by destruct (Pay (fst c) H0) as (_ & -> & ->).
  - intros A c d B' Ec Nx. apply Lk; [| |done]; intros j Ej.
    + destruct (kc_lt _ _ _ c H) as (j' & Lj & Ej'); [rewrite Ec; apply elem_of_app; right; by left|]. assert (j = j') by (by eapply at_inj). lia.
    + destruct (kc_lt _ _ _ d H) as (j' & Lj & Ej'); [rewrite Ec; apply elem_of_app; right; right; by left|]. assert (j = j') by (by eapply at_inj). lia.
Qed.
Lemma kc_m lo C (h : heap) p vs r h' b b' : base h -> Kc lo C h -> from lo p -> nseg h p vs r ->
  finish_combine KParamType (map Some (filter (fun l => kind_of h (Some l) <> KComment) vs)) (mkSt h b) = Ok (mkSt h' b', tt) -> Kc lo C h'.
Proof.
  intros B HK F Sg E.
  destruct (filter_sorted h0 ls (fun l => kind_of h (Some l) <> KComment) h vs lo p r B F Sg) as [E2|(v & vs' & j & E2 & Ej & Lj & Fj)].
  - rewrite E2 in E. cbn in E. by injection E as <- <-.
  - rewrite E2 in E. cbn [map] in E. eapply (kc_a lo C h v j); [done|done|done|done| |exact E]. apply Forall_fmap. exact Fj.
Qed.
Lemma blockc lo C f : PR h0 ls true lo (Kc lo C) any f /\ PP h0 ls true lo (Kc lo C) any f /\ FRp h0 ls lo (Kc lo C) any f /\ FR h0 ls true lo (Kc lo C) any f /\
  GF h0 ls lo (Kc lo C) any f /\ PF h0 ls lo (Kc lo C) any f /\ SR h0 ls lo (Kc lo C) any f.
Proof.
  apply (ResetTop.block h0 ls ND Hval Hout true lo (Kc lo C)).
  - intros h p k B HK F Ok _. by apply kc_k.
  - intros h p vs r h' b b' B HK F Sg _ _ E _. by eapply kc_m.
Qed.
(** Merging known nodes. *)
Lemma kc_merge lo A v M B h b : base h -> Kc lo (A ++ v :: M ++ B) h -> B <> [] ->
  exists h', finish_combine KParamType (map Some (map fst (v :: M))) (mkSt h b) = Ok (mkSt h' b, tt) /\ base h' /\
    Kc lo (A ++ (fst v, merged (map snd (v :: M))) :: B) h'.
Proof.
  intros Bs H NB. destruct (kc_chain _ _ _ Bs H) as (rest & Cc).
  assert (Hv : v ∈ A ++ v :: M ++ B) by (apply elem_of_app; right; by left).
  pose proof (kc_in _ _ _ _ H Hv) as Iv. apply elem_of_list_lookup in Iv as (i & Ei).
  assert (Cc' : chain h (map fst A ++ fst v :: map fst M ++ (map fst B ++ rest))).
  { rewrite !map_app in Cc. cbn [map] in Cc. rewrite !map_app, <- !app_assoc in Cc. cbn [app] in Cc. by rewrite <- !app_assoc in Cc. }
  destruct (merge_run h KParamType (map fst A) (fst v) (map fst M) (map fst B ++ rest) b (b_wf _ _ _ Bs) Cc') as (h' & E & Ch & _ & _ & Tx & Pay).
  assert (Sg : nseg h (Some (fst v)) (map fst (v :: M)) (cursor h (A ++ v :: M) B)).
  { pose proof (kc_stretch lo A (v :: M) B h H) as Sg. exact Sg. }
  destruct (finish_base h0 ls ND Hval Hout h (fst v) i (map Some (map fst M)) KParamType b Bs Ei) as (h2 & E2 & B2 & _ & _ & Kn); [|apply mem_kind_true; reflexivity|].
  { apply Forall_fmap. pose proof (nseg_from h0 ls h (map fst (v :: M)) i _ _ Bs (from_at ls i _ Ei) Sg) as Fr. cbn [map] in Fr. by apply Forall_cons in Fr as [_ Fr]. }
  cbn [map] in E. rewrite E in E2. injection E2 as <-. exists h'. split; [done|]. split; [done|].
  pose proof (chain_NoDup _ _ Cc') as NDc.
  assert (Sh : forall c, c ∈ A \/ c ∈ B -> shows h' (fst c) = snd c).
  { intros c Hc. assert (fst c <> fst v).
    { apply (kc_notin lo A v (M ++ B) h c Bs H). rewrite elem_of_app. tauto. }
    unfold shows. destruct (Pay (fst c) H0) as (-> & ->). apply (kc_show _ _ _ c H). rewrite elem_of_app, elem_of_cons, elem_of_app. tauto. }
  assert (Sv : shows h' (fst v) = merged (map snd (v :: M))).
  { unfold shows, merged. rewrite Kn, Tx. f_equal. cbn [map concat]. f_equal.
    - by rewrite <- (kc_show _ _ _ v H Hv).
    - unfold txt. f_equal. apply (kc_texts lo (A ++ [v]) M B). by rewrite <- app_assoc. }
  constructor.
  - rewrite Forall_app, Forall_cons. split; [|split; [done|]]; apply Forall_forall; intros c Hc; apply Sh; tauto.
  - intros A' c d B' Ec.
    assert (Em : map fst A ++ fst v :: map fst B ++ rest = map fst A' ++ fst c :: fst d :: map fst B' ++ rest).
    { change (fst v) with (fst (fst v, merged (map snd (v :: M)))). change (?x :: map fst B ++ rest) with ((x :: map fst B) ++ rest).
      rewrite <- (map_cons fst). rewrite app_assoc, <- map_app, Ec, map_app, <- app_assoc. done. }
    rewrite Em in Ch. rewrite (chain_next h' _ _ _ Ch). done.
  - pose proof (kc_pos _ _ _ H) as F. rewrite Forall_app, Forall_cons, Forall_app in *. tauto.
  - destruct (kc_last _ _ _ H) as (c & j & Lc & Ej & El). exists c, j. split; [|done].
    destruct B as [|x B _] using rev_ind; [done|]. rewrite !app_comm_cons, !app_assoc, last_snoc in Lc. rewrite app_comm_cons, app_assoc, last_snoc. done.
  - rewrite <- (kc_head _ _ _ H). rewrite !map_app. by destruct A.
Qed.

(** ** Walks over known nodes *)
Definition at_node {X} (p : ptr) (w : wl X) : Prop := w_skip w = false /\ (w_jump w = None \/ w_jump w = p).
Lemma w_step {X} (sw : loc -> X -> M (act * X)) l w fuel Q s : 0 < fuel -> at_node (Some l) w ->
  wp (sw l (w_x w)) (fun ax s' => match fst ax with
    | Stop => Q (mkWl false None (snd ax), Some l) s'
    | Cont => wp (iterM (pred fuel) (walk_body false [] sw) (next_of (s_heap s') (Some l)) (mkWl false None (snd ax))) Q s'
    | Jump p => wp (iterM (pred fuel) (walk_body false [] sw) (next_of (s_heap s') (Some l)) (mkWl (ptr_eqb p None) p (snd ax))) Q s' end) s ->
  wp (iterM fuel (walk_body false [] sw) (Some l) w) Q s.
Proof.
  intros L [E1 E2] H. apply step_iterM; [done|]. destruct w as [sk j x]. cbn [w_skip w_jump w_x] in *. subst sk.
  destruct E2 as [-> | ->]; [apply wb_run|apply wb_target]; (eapply wp_mono; [exact H|]); intros ax s'; cbv beta; destruct (fst ax); cbn [fst snd]; intros H'; exact H'.
Qed.
Lemma w_jumped {X} lo skip (sw : loc -> X -> M (act * X)) A S c B x fuel Q s : base (s_heap s) -> Kc lo (A ++ S ++ c :: B) (s_heap s) -> length S <= fuel ->
  wp (iterM (fuel - length S) (walk_body skip [] sw) (Some (fst c)) (mkWl false (Some (fst c)) x)) Q s ->
  wp (iterM fuel (walk_body skip [] sw) (cursor (s_heap s) A (S ++ c :: B)) (mkWl (ptr_eqb (Some (fst c)) None) (Some (fst c)) x)) Q s.
Proof.
  intros Bs H L W. change (ptr_eqb (Some (fst c)) None) with false. pose proof (kc_stretch lo A S (c :: B) _ H) as Sg. cbn [cursor] in Sg.
  eapply jump_over; [exact Sg| |by rewrite map_length|by rewrite map_length].
  intros Hin. apply elem_of_list_fmap in Hin as (x0 & E & Hx). rewrite app_assoc in H. apply (kc_notin lo (A ++ S) c B _ x0 Bs H); [left; apply elem_of_app; by right|done].
Qed.
Lemma next_c lo A c B h : Kc lo (A ++ c :: B) h -> next_of h (Some (fst c)) = cursor h (A ++ [c]) B.
Proof. apply cursor_next. Qed.

(** ** Walks that make types of the identifiers they visit *)
Definition hs (deep : bool) : list hook := if deep then [raw_hook] else [].
Definition tcell (deep : bool) (c : cell) : cell := (fst c, typed deep (snd c)).
Lemma tcell_other deep (c : cell) : knd c <> KRaw -> tcell deep c = c.
Proof. destruct c as [l [t k]]. intros N. unfold tcell, typed. cbn [fst snd] in *. rewrite bool_decide_eq_false_2 by done. by rewrite andb_false_r. Qed.
Lemma tcell_off (c : cell) : tcell false c = c.
Proof. by destruct c. Qed.
Lemma hook_cell deep lo A (c : cell) B (s : st) : base (s_heap s) -> Kc lo (A ++ c :: B) (s_heap s) ->
  exists s1, handle_hook (Some (fst c)) (hs deep) s = Ok (s1, tt) /\ base (s_heap s1) /\ Kc lo (A ++ tcell deep c :: B) (s_heap s1).
Proof.
  intros Bs H. destruct deep; [|rewrite tcell_off; by exists s]. unfold handle_hook, hs. cbn [fold_left]. unfold raw_hook. destruct c as [l [t k]]. cbn [fst].
  rewrite (kc_kind _ _ _ _ _ _ _ H). destruct (kind_eqb k KRaw) eqn:E.
  - apply kind_eqb_true in E as ->. destruct (kc_set lo A l t KRaw B _ KParamType Bs H) as [B1 H1]; [apply mem_kind_true; reflexivity|]. eexists. split; [done|]. by split.
  - apply kind_eqb_false in E. exists s. rewrite tcell_other by done. done.
Qed.
Lemma w_hook {X} deep lo A (c : cell) B (sw : loc -> X -> M (act * X)) w fuel Q s : 0 < fuel -> base (s_heap s) -> Kc lo (A ++ c :: B) (s_heap s) -> at_node (Some (fst c)) w ->
  (forall s1, base (s_heap s1) -> Kc lo (A ++ tcell deep c :: B) (s_heap s1) ->
   wp (sw (fst c) (w_x w)) (fun ax s' => match fst ax with
    | Stop => Q (mkWl false None (snd ax), Some (fst c)) s'
    | Cont => wp (iterM (pred fuel) (walk_body false (hs deep) sw) (next_of (s_heap s') (Some (fst c))) (mkWl false None (snd ax))) Q s'
    | Jump p => wp (iterM (pred fuel) (walk_body false (hs deep) sw) (next_of (s_heap s') (Some (fst c))) (mkWl (ptr_eqb p None) p (snd ax))) Q s' end) s1) ->
  wp (iterM fuel (walk_body false (hs deep) sw) (Some (fst c)) w) Q s.
Proof.
  intros L Bs H [E1 E2] HQ. apply step_iterM; [done|]. destruct (hook_cell deep lo A c B s Bs H) as (s1 & Eh & B1 & H1). unfold walk_body at 1. apply wp_bind.
  unfold wp at 1. rewrite Eh. specialize (HQ s1 B1 H1). destruct w as [sk j x]. cbn [w_skip w_jump w_x] in *. subst sk.
  assert (Ej : negb (ptr_eqb j None) && negb (ptr_eqb (Some (fst c)) j) = false).
  { destruct E2 as [-> | ->]; [done|]. unfold ptr_eqb at 2. rewrite bool_decide_eq_true_2 by done. by rewrite andb_false_r. }
  rewrite Ej, andb_false_r. apply wp_bind. eapply wp_mono; [exact HQ|]. intros ax s'. cbv beta. destruct (fst ax); cbn [fst snd]; intros H'; apply wp_ret; exact H'.
Qed.
Lemma w_jumped_h {X} deep lo (sw : loc -> X -> M (act * X)) A S (c : cell) B x fuel Q s : base (s_heap s) -> Kc lo (A ++ S ++ c :: B) (s_heap s) -> length S <= fuel ->
  (deep = true -> KRaw ∉ map snd (map snd S)) ->
  wp (iterM (fuel - length S) (walk_body false (hs deep) sw) (Some (fst c)) (mkWl false (Some (fst c)) x)) Q s ->
  wp (iterM fuel (walk_body false (hs deep) sw) (cursor (s_heap s) A (S ++ c :: B)) (mkWl (ptr_eqb (Some (fst c)) None) (Some (fst c)) x)) Q s.
Proof.
  intros Bs H L NR W. change (ptr_eqb (Some (fst c)) None) with false. revert A fuel H L NR W. induction S as [|d S IH]; intros A fuel H L NR W.
  - cbn [app cursor length] in *. by rewrite Nat.sub_0_r in W.
  - cbn [app cursor length] in *. apply step_iterM; [lia|]. unfold walk_body at 1. apply wp_bind.
    assert (Eh : handle_hook (Some (fst d)) (hs deep) s = Ok (s, tt)).
    { destruct deep; [|done]. unfold handle_hook, hs. cbn [fold_left]. unfold raw_hook. rewrite (kc_at0 _ _ _ _ _ H). rewrite (proj2 (kind_eqb_false _ _)); [done|].
      intros E. apply (NR eq_refl). cbn [map]. rewrite E. by left. }
    unfold wp at 1. rewrite Eh. cbn [w_skip w_jump]. change (negb (ptr_eqb (Some (fst c)) None)) with true.
    assert (Nd : ptr_eqb (Some (fst d)) (Some (fst c)) = false).
    { unfold ptr_eqb. apply bool_decide_eq_false_2. intros [= E]. rewrite (app_assoc A (d :: S) (c :: B) : A ++ d :: S ++ c :: B = _) in H. apply (kc_notin lo (A ++ d :: S) c B _ d Bs H); [|done]. left. apply elem_of_app. right. by left. }
    rewrite Nd. cbn [negb andb]. apply wp_ret. cbn [fst snd]. rewrite (cursor_next _ _ _ _ _ H). apply IH; [by rewrite <- app_assoc|lia| |].
    + intros E Hin. apply (NR E). cbn [map]. by right.
    + by replace (pred fuel - length S) with (fuel - Datatypes.S (length S)) by lia.
Qed.
(** Skipping square brackets with the same side effect. *)
Definition skd (deep : bool) (l : loc) (count : Z) : M (Z * bool) :=
  handle_hook (Some l) (hs deep) ;;;
  k <- get_kind (Some l) ;
  if kind_eqb k KSquareL then ret (count + 1, true)%Z
  else if kind_eqb k KSquareR then ret ((count - 1)%Z, negb (count - 1 =? 0)%Z)
  else ret (count, true).
Lemma tcell_kind deep (c : cell) : knd c = KRaw /\ (knd (tcell deep c) = KRaw \/ knd (tcell deep c) = KParamType) \/ knd c <> KRaw /\ tcell deep c = c.
Proof.
  destruct (decide (knd c = KRaw)) as [E|N]; [left|right; split; [done|by apply tcell_other]]. split; [done|]. destruct c as [l [t k]]. unfold tcell, typed. cbn [fst snd] in *. subst k.
  destruct deep; cbn [andb snd]; [right; by rewrite bool_decide_eq_true_2|by left].
Qed.
Lemma skip_deep deep ks : squares ks -> forall lo A (P : list cell) (c : cell) B (s : st) count fuel Q, map snd (map snd P) = ks -> base (s_heap s) -> Kc lo (A ++ P ++ c :: B) (s_heap s) ->
  length P <= fuel -> (1 <= count)%Z ->
  (forall s', base (s_heap s') -> Kc lo (A ++ map (tcell deep) P ++ c :: B) (s_heap s') -> wp (iterM (fuel - length P) (skd deep) (Some (fst c)) count) Q s') ->
  wp (iterM fuel (skd deep) (cursor (s_heap s) A (P ++ c :: B)) count) Q s.
Proof.
  assert (One : forall lo A (x : cell) R (s : st) c c' fuel Q, 1 <= fuel -> base (s_heap s) -> Kc lo (A ++ x :: R) (s_heap s) ->
    (if kind_eqb (knd (tcell deep x)) KSquareL then (c + 1, true)%Z else if kind_eqb (knd (tcell deep x)) KSquareR then ((c - 1)%Z, negb (c - 1 =? 0)%Z) else (c, true)) = (c', true) ->
    (forall s1, base (s_heap s1) -> Kc lo ((A ++ [tcell deep x]) ++ R) (s_heap s1) -> wp (iterM (fuel - 1) (skd deep) (cursor (s_heap s1) (A ++ [tcell deep x]) R) c') Q s1) ->
    wp (iterM fuel (skd deep) (Some (fst x)) c) Q s).
  { intros lo A x R s c c' fuel Q L Bs H E HQ. apply step_iterM; [lia|]. destruct (hook_cell deep lo A x R s Bs H) as (s1 & Eh & B1 & H1).
    unfold skd at 1. apply wp_bind. unfold wp at 1. rewrite Eh. apply wp_bind, wp_get_kind. change (fst x) with (fst (tcell deep x)). rewrite (kc_at0 _ _ _ _ _ H1).
    set (kd := knd (tcell deep x)) in *.
    replace (if kind_eqb kd KSquareL then ret ((c + 1)%Z, true) else if kind_eqb kd KSquareR then ret ((c - 1)%Z, negb (c - 1 =? 0)%Z) else ret (c, true)) with (@ret (Z * bool) (c', true)).
    2:{ rewrite <- E. destruct (kind_eqb kd KSquareL); [done|]. by destruct (kind_eqb kd KSquareR). }
    apply wp_ret. cbn [fst snd]. rewrite (cursor_next _ _ _ _ _ H1). replace (pred fuel) with (fuel - 1) by lia. apply HQ; [done|by rewrite <- app_assoc]. }
  induction 1 as [|k ks N1 N2 Sq IH|ks ks' Sq IH Sq' IH']; intros lo A P c B s count fuel Q Ek Bs H Lf Lc HQ.
  - destruct P as [|]; [|done]. cbn [app map cursor length] in *. specialize (HQ s Bs H). by rewrite Nat.sub_0_r in HQ.
  - destruct P as [|x P]; [done|]. cbn [map] in Ek. injection Ek as Ek1 Ek2. cbn [app map cursor length] in *. apply (One lo A x (P ++ c :: B) s count count); [lia|done|done| |].
    { destruct (tcell_kind deep x) as [[_ [-> | ->]]|[_ ->]]; [done|done|]. rewrite Ek1, (proj2 (kind_eqb_false _ _) N1), (proj2 (kind_eqb_false _ _) N2). done. }
    intros s1 B1 H1. apply (IH lo); [done|done|done|lia|done|]. intros s2 B2 H2. rewrite <- app_assoc in H2. specialize (HQ s2 B2 H2).
    by replace (fuel - 1 - length P) with (fuel - Datatypes.S (length P)) by lia.
  - destruct P as [|x P]; [done|]. cbn [map] in Ek. injection Ek as Ek1 Ek2. rewrite map_map in Ek2. apply map_eq_app in Ek2 as (P1 & P2 & -> & E1 & E2). destruct P2 as [|y P2]; [done|].
    cbn [map] in E2. injection E2 as Ey E2. rewrite map_map in E1 at 1 || idtac. cbn [app map cursor length] in *. rewrite app_length in *. cbn [length] in *.
    assert (Tx : tcell deep x = x) by (apply tcell_other; rewrite Ek1; done). assert (Ty : tcell deep y = y) by (apply tcell_other; rewrite Ey; done).
    rewrite map_app in HQ. cbn [map] in HQ. rewrite Tx, Ty, <- app_assoc in HQ. rewrite <- app_assoc in *. cbn [app] in *.
    apply (One lo A x (P1 ++ y :: P2 ++ c :: B) s count (count + 1)%Z); [lia|done|done|by rewrite Tx, Ek1|]. rewrite Tx.
    intros s1 B1 H1. apply (IH lo); [by rewrite map_map|done|done|lia|lia|]. intros s2 B2 H2.
    assert (H2' : Kc lo ((A ++ x :: map (tcell deep) P1) ++ y :: P2 ++ c :: B) (s_heap s2)) by (rewrite <- !app_assoc in *; exact H2).
    eapply (One lo _ y (P2 ++ c :: B) s2 (count + 1)%Z count _ Q); [lia|exact B2|exact H2'| |].
    { rewrite Ty, Ey. kred. replace (count + 1 - 1)%Z with count by lia. rewrite (proj2 (Z.eqb_neq count 0)) by lia. done. }
    rewrite Ty. intros s3 B3 H3. apply (IH' lo); [by rewrite map_map|done|done|lia|done|]. intros s4 B4 H4.
    replace (fuel - 1 - length P1 - 1 - length P2) with (fuel - Datatypes.S (length P1 + Datatypes.S (length P2))) by lia.
    apply HQ; [done|]. rewrite <- !app_assoc in H4. cbn [app] in H4. exact H4.
Qed.
Lemma square_deep deep lo A (o : cell) (P : list cell) (c : cell) B f (s : st) : base (s_heap s) -> Kc lo (A ++ o :: P ++ c :: B) (s_heap s) -> knd o = KSquareL -> knd c = KSquareR ->
  squares (map snd (map snd P)) -> length P + 2 <= f ->
  wp (square_run f (Some (fst o)) (hs deep)) (fun r s' => r = Some (fst c) /\ base (s_heap s') /\ Kc lo (A ++ o :: map (tcell deep) P ++ c :: B) (s_heap s')) s.
Proof.
  intros Bs H Ko Kcl Sq Lf. unfold square_run, skip_nest. apply wp_bind, wp_get_kind. rewrite (kc_at0 _ _ _ _ _ H), Ko. kred. apply wp_bind, wp_bind.
  assert (Eh : handle_hook (Some (fst o)) (hs deep) s = Ok (s, tt)).
  { destruct deep; [|done]. unfold handle_hook, hs. cbn [fold_left]. unfold raw_hook. rewrite (kc_at0 _ _ _ _ _ H), Ko. done. }
  unfold wp at 1. rewrite Eh. apply wp_bind. unfold find_next. apply wp_bind. apply step_iterM; [lia|]. apply wp_bind. unfold wp at 1. rewrite Eh. apply wp_bind, wp_get_kind, wp_ret.
  rewrite (kc_at0 _ _ _ _ _ H), Ko. cbn [fst snd]. change (find_decide [KSquareL] opt0 KSquareL (count_step KSquareL (0, 0, 0)%Z)) with false. apply wp_ret. cbn [snd]. apply wp_get_next.
  rewrite (cursor_next _ _ _ _ _ H). apply wp_bind.
  assert (H1 : Kc lo ((A ++ [o]) ++ P ++ c :: B) (s_heap s)) by (by rewrite <- app_assoc).
  change (wp (iterM f (skd deep) (cursor (s_heap s) (A ++ [o]) (P ++ c :: B)) 1%Z) (fun a0 s' => wp (ret a0.2) (fun r s'' => r = Some (fst c) /\ base (s_heap s'') /\ Kc lo (A ++ o :: map (tcell deep) P ++ c :: B) (s_heap s'')) s') s).
  apply (skip_deep deep _ Sq lo (A ++ [o]) P c B s 1%Z f _ eq_refl Bs H1); [lia|lia|]. intros s1 B1 H2. apply step_iterM; [lia|].
  assert (H3 : Kc lo ((A ++ o :: map (tcell deep) P) ++ c :: B) (s_heap s1)) by (rewrite <- app_assoc in *; exact H2).
  assert (Eh1 : handle_hook (Some (fst c)) (hs deep) s1 = Ok (s1, tt)).
  { destruct deep; [|done]. unfold handle_hook, hs. cbn [fold_left]. unfold raw_hook. rewrite (kc_at0 _ _ _ _ _ H3), Kcl. done. }
  unfold skd. apply wp_bind. unfold wp at 1. rewrite Eh1. apply wp_bind, wp_get_kind. rewrite (kc_at0 _ _ _ _ _ H3), Kcl. kred. apply wp_ret. cbn [fst snd]. change (negb (1 - 1 =? 0)%Z) with false.
  apply wp_ret. cbn [snd]. split; [done|]. split; [done|]. rewrite <- app_assoc in H3. exact H3.
Qed.

(** ** Counting the words of a parameter *)
Lemma scan_seg {T} (h : heap) (fn : loc -> T -> T * bool) us q : forall p a, nseg h p us q -> length us <= length h -> snd (scan_list fn us a) <> None ->
  scan_next h p fn a = Ok (scan_list fn us a).
Proof.
  unfold scan_next. intros p a Sg L. assert (G : forall us fuel p a, nseg h p us q -> length us <= fuel -> snd (scan_list fn us a) <> None ->
    loop fuel (fun _ l => next_of h (Some l)) (fun l a => Ok (fn l a)) p a = Ok (scan_list fn us a)).
  { clear. induction us as [|u us IH]; intros fuel p a Sg L NS; [done|]. cbn [NodeChain.nseg length scan_list] in *. destruct Sg as [-> Sg].
    destruct fuel as [|f]; [lia|]. cbn [loop]. destruct (fn u a) as [a' [|]]; [|done]. by apply IH; [|lia|]. }
  apply G; [done|lia].
Qed.
Lemma count_words lo A S c B (s : st) : base (s_heap s) -> Kc lo (A ++ S ++ c :: B) (s_heap s) -> snd (snd c) ∈ [KComma; KParenR] ->
  valid_param_count (cursor (s_heap s) A (S ++ c :: B)) s = Ok (s, Z.of_nat (words (map snd S))).
Proof.
  intros Bs H Kc'. rewrite vpc_eq. unfold bind, scanM.
  assert (G : forall S2 a, (forall x, x ∈ S2 ++ [c] -> kind_of (s_heap s) (Some (fst x)) = snd (snd x)) ->
    fst (scan_list (vpc_step (s_heap s)) (map fst (S2 ++ [c])) a) = (a + Z.of_nat (words (map snd S2)))%Z /\ snd (scan_list (vpc_step (s_heap s)) (map fst (S2 ++ [c])) a) <> None).
  { clear H. induction S2 as [|[l [t k]] S2 IH]; intros a Hk; cbn [app map scan_list words snd fst].
    - unfold vpc_step. rewrite (Hk c) by (by left). rewrite (proj2 (mem_kind_true _ _) Kc'). cbn [fst snd]. split; [lia|done].
    - unfold vpc_step at 1 3. pose proof (Hk (l, (t, k)) ltac:(by left)) as Hl. cbn [fst snd] in Hl. rewrite Hl. unfold mem_kind at 1 3.
      case_bool_decide; [cbn [fst snd]; split; [lia|done]|]. change (mem_kind k [KSpace; KTab; KComment; KNewLine]) with (bool_decide (k ∈ white)).
      assert (Hk2 : forall x, x ∈ S2 ++ [c] -> kind_of (s_heap s) (Some (fst x)) = snd (snd x)) by (intros; apply Hk; by right).
      case_bool_decide; [by apply IH|]. destruct (IH (a + 1)%Z Hk2) as [-> ?]. split; [lia|done]. }
  assert (Hk : forall x, x ∈ S ++ [c] -> kind_of (s_heap s) (Some (fst x)) = snd (snd x)).
  { intros x Hx. rewrite <- (kc_show _ _ _ x H); [done|]. rewrite elem_of_app in Hx. rewrite elem_of_list_singleton in Hx. rewrite !elem_of_app, elem_of_cons. tauto. }
  destruct (G S 0%Z Hk) as [E1 E2].
  assert (H' : Kc lo (A ++ (S ++ [c]) ++ B) (s_heap s)) by (by rewrite <- app_assoc).
  pose proof (kc_stretch lo A (S ++ [c]) B _ H') as Sg. rewrite <- app_assoc in Sg. cbn [app] in Sg.
  rewrite (scan_seg (s_heap s) (vpc_step (s_heap s)) (map fst (S ++ [c])) _ _ 0%Z Sg); [|..|done].
  - cbn [res_bind]. rewrite E1. done.
  - apply (NoDup_bound (map fst (S ++ [c])) (length (s_heap s))).
    + pose proof (kc_nodup lo _ _ Bs H') as D. rewrite !map_app in D. apply NoDup_app in D as (_ & _ & D). apply NoDup_app in D as (D & _ & _). by rewrite map_app.
    + intros x Hx. apply elem_of_list_fmap in Hx as (y & -> & Hy). eapply base_valid; [exact Hval|exact Bs|].
      apply (kc_in _ _ _ y H'). rewrite !elem_of_app in *. tauto.
Qed.

(** ** Parameters *)
Definition walked (lo : nat) (A S : list cell) (ts' : list lexeme) (R : list cell) (r : ptr) (s' : st) : Prop :=
  r = cursor (s_heap s') [] R /\ base (s_heap s') /\ exists S', Kc lo (A ++ S' ++ R) (s_heap s') /\ map snd S' = ts' /\ map fst S' = map fst S.
Lemma walked_more lo A M M' S ts' R r s' : map fst M' = map fst M -> walked lo (A ++ M') S ts' R r s' -> walked lo A (M ++ S) (map snd M' ++ ts') R r s'.
Proof.
  intros E (Hr & B & S' & HK & H1 & H2). split; [done|]. split; [done|]. exists (M' ++ S'). rewrite <- app_assoc in HK. rewrite <- app_assoc, !map_app, H1, H2, E. done.
Qed.
Lemma kc_at lo A c B h : Kc lo (A ++ c :: B) h -> kind_of h (Some (fst c)) = knd c.
Proof. destruct c as [l [t k]]. apply kc_kind. Qed.
Lemma kind_elem (k x : kind) l : k ∉ l -> mem_kind x l = true -> kind_eqb k x = false.
Proof. intros N E. apply kind_eqb_false. intros ->. apply N. by apply mem_kind_true. Qed.
Lemma kinds_out (k : kind) l l2 : k ∉ l -> forallb (fun x => mem_kind x l) l2 = true -> mem_kind k l2 = false.
Proof.
  intros N E. apply mem_kind_false. intros H. apply N. rewrite forallb_forall in E. apply mem_kind_true. apply E. by apply elem_of_list_In.
Qed.
Definition plain_out : list kind := [KRaw; KParamName; KParamType; KComma; KParenR; KSquareL; KFunc].
Lemma pp_other f n t cnt hk l named k (s : st) : kind_of (s_heap s) (Some l) = k -> k ∉ plain_out ->
  pp_sw f n t cnt hk l named s = Ok (s, (Cont, named)).
Proof.
  intros E N. unfold pp_sw, bind, get_kind, ret. cbn [res_bind]. rewrite E.
  rewrite (kinds_out k _ [KComma; KParenR] N) by reflexivity. rewrite (kind_elem k KSquareL _ N) by reflexivity.
  destruct (mem_kind k [KComment; KParenL; KTab; KNewLine; KSpace]); [done|].
  rewrite (kind_elem k KFunc _ N) by reflexivity. rewrite (kinds_out k _ [KRaw; KParamType; KParamName] N) by reflexivity. done.
Qed.
Lemma wp_ok {A} (m : M A) a (Q : A -> st -> Prop) s s' : m s = Ok (s', a) -> Q a s' -> wp m Q s.
Proof. intros E H. unfold wp. by rewrite E. Qed.

Lemma at_fresh {X} p (x : X) : at_node p (mkWl false None x).
Proof. split; [done|by left]. Qed.
Lemma at_target {X} p (x : X) : at_node p (mkWl false p x).
Proof. split; [done|by right]. Qed.
Lemma fst_length (S S' : list cell) : map fst S' = map fst S -> length S' = length S.
Proof. intros E. by rewrite <- (map_length fst S), <- E, map_length. Qed.
Lemma plain_hook deep lo A (c : cell) B (s : st) : Kc lo (A ++ c :: B) (s_heap s) -> knd c <> KRaw -> handle_hook (Some (fst c)) (hs deep) s = Ok (s, tt).
Proof.
  intros H N. destruct deep; [|done]. unfold handle_hook, hs. cbn [fold_left]. unfold raw_hook. rewrite (kc_at _ _ _ _ _ H). by rewrite (proj2 (kind_eqb_false _ _) N).
Qed.
(** A step at a node that is no identifier. *)
Lemma w_plain {X} deep lo A (c : cell) B (sw : loc -> X -> M (act * X)) w fuel Q (s : st) : 0 < fuel -> base (s_heap s) -> Kc lo (A ++ c :: B) (s_heap s) -> knd c <> KRaw -> at_node (Some (fst c)) w ->
  wp (sw (fst c) (w_x w)) (fun ax s' => match fst ax with
    | Stop => Q (mkWl false None (snd ax), Some (fst c)) s'
    | Cont => wp (iterM (pred fuel) (walk_body false (hs deep) sw) (next_of (s_heap s') (Some (fst c))) (mkWl false None (snd ax))) Q s'
    | Jump p => wp (iterM (pred fuel) (walk_body false (hs deep) sw) (next_of (s_heap s') (Some (fst c))) (mkWl (ptr_eqb p None) p (snd ax))) Q s' end) s ->
  wp (iterM fuel (walk_body false (hs deep) sw) (Some (fst c)) w) Q s.
Proof.
  intros L Bs H N [E1 E2] HQ. apply step_iterM; [done|]. unfold walk_body at 1. apply wp_bind.
  unfold wp at 1. rewrite (plain_hook deep _ _ _ _ _ H N). destruct w as [sk j x]. cbn [w_skip w_jump w_x] in *. subst sk.
  assert (Ej : negb (ptr_eqb j None) && negb (ptr_eqb (Some (fst c)) j) = false).
  { destruct E2 as [-> | ->]; [done|]. unfold ptr_eqb at 2. rewrite bool_decide_eq_true_2 by done. by rewrite andb_false_r. }
  rewrite Ej, andb_false_r. apply wp_bind. eapply wp_mono; [exact HQ|]. intros ax s'. cbv beta. destruct (fst ax); cbn [fst snd]; intros H'; apply wp_ret; exact H'.
Qed.
(** With [deep], no identifier is left. *)
Scheme refines_mind := Minimality for refines Sort Prop with params_mind := Minimality for params Sort Prop.
Combined Scheme refines_params_ind from refines_mind, params_mind.
Lemma typed_no_raw (ps : list lexeme) : KRaw ∉ map snd (map (typed true) ps).
Proof.
  rewrite map_map. intros Hin. apply elem_of_list_fmap in Hin as ([t k] & E & _). unfold typed in E. cbn [andb snd] in E. case_bool_decide; cbn [snd] in E; [done|congruence].
Qed.
Lemma no_raw deep : deep = true -> (forall name typ b ts ts', refines deep name typ b ts ts' -> name <> KRaw -> typ <> KRaw -> KRaw ∉ map snd ts') /\
  (forall name typ ts ts', params deep name typ ts ts' -> name <> KRaw -> typ <> KRaw -> KRaw ∉ map snd ts').
Proof.
  intros ->. apply (refines_params_ind true (fun name typ b ts ts' => name <> KRaw -> typ <> KRaw -> KRaw ∉ map snd ts') (fun name typ ts ts' => name <> KRaw -> typ <> KRaw -> KRaw ∉ map snd ts')).
  - intros _ _ _ _ _. apply not_elem_of_nil.
  - intros name typ b t ts ts' _ IH N1 N2. cbn [map snd]. apply not_elem_of_cons. split; [by destruct b|auto].
  - intros name typ b t k ts ts' Nk _ IH N1 N2. cbn [map snd]. apply not_elem_of_cons. split; [|auto]. intros <-. apply Nk. by left.
  - intros name typ b t ps u ts ts' _ _ IH N1 N2. cbn [map snd]. rewrite map_app. cbn [map snd]. apply not_elem_of_cons. split; [done|]. apply not_elem_of_app. split; [apply typed_no_raw|].
    apply not_elem_of_cons. split; [done|auto].
  - intros name typ b t u ps ps' v ts ts' _ IH1 _ IH2 N1 N2. cbn [map snd]. rewrite map_app. cbn [map snd]. apply not_elem_of_cons. split; [done|]. apply not_elem_of_cons. split; [done|].
    apply not_elem_of_app. split; [by apply IH1|]. apply not_elem_of_cons. split; [done|auto].
  - intros b t u ts ts' _ IH N1 N2. cbn [map snd]. apply not_elem_of_cons. split; [by destruct b|]. apply not_elem_of_cons. split; [done|auto].
  - auto.
  - intros name typ p p' t ps ps' _ IH1 _ IH2 N1 N2. rewrite map_app. cbn [map snd]. apply not_elem_of_app. split; [auto|]. apply not_elem_of_cons. split; [done|auto].
Qed.

Notation recv_name rcv := (if (rcv : bool) then KMethodReceiverName else KParamName).
Notation recv_type rcv := (if (rcv : bool) then KMethodReceiverType else KParamType).
Lemma recv_ok rcv : recv_name rcv <> KRaw /\ recv_type rcv <> KRaw /\ recv_name rcv ∈ refined /\ recv_type rcv ∈ refined.
Proof. destruct rcv; repeat split; try done; apply mem_kind_true; reflexivity. Qed.
(** Lists in parentheses of at most [n] lexemes. *)
Definition PW (deep : bool) (n : nat) : Prop := forall (rcv : bool) ps ps' lo (A : list cell) (o : cell) (S : list cell) (c : cell) (B : list cell) f (s : st),
  params deep (recv_name rcv) (recv_type rcv) ps ps' -> length ps <= n ->
  map snd S = ps -> knd o = KParenL -> knd c = KParenR -> base (s_heap s) -> Kc lo (A ++ o :: S ++ c :: B) (s_heap s) -> 6 * length S + 6 <= f ->
  wp (paren_run f false rcv (Some (fst o)) (hs deep)) (walked lo (A ++ [o]) S ps' (c :: B)) s.

(** The function type of a parameter. *)
Lemma param_func deep n lo (A : list cell) (k o : cell) (S : list cell) (c : cell) (B : list cell) f ps ps' (s : st) : PW deep n -> params deep KParamName KParamType ps ps' -> length ps <= n -> map snd S = ps -> knd k = KFunc -> knd o = KParenL -> knd c = KParenR ->
  base (s_heap s) -> Kc lo (A ++ k :: o :: S ++ c :: B) (s_heap s) -> B <> [] -> 6 * length S + 9 <= f ->
  wp (func_run f ff_p (Some (fst k)) (hs deep)) (fun r s' => walked lo (A ++ [k; o]) S ps' (c :: B) (Some (fst c)) s' /\ r = cursor (s_heap s') [] B) s.
Proof.
  intros IH P Ln Es Kk Ko Kcl Bs H NB Lf. destruct f as [|[|[|f]]]; [lia..|]. rewrite func_run_eq. cbn [ff_param ff_p]. rewrite parameter_func_eq. apply wp_bind.
  rewrite general_func_eq. apply wp_bind, wp_get_kind, wp_bind. rewrite (kc_at _ _ _ _ _ H), Kk. kred. apply wp_bind.
  apply (wp_ok _ tt _ _ s); [eapply plain_hook; [exact H|by rewrite Kk]|]. apply wp_get_next.
  rewrite (kc_link _ _ _ H A k o (S ++ c :: B) eq_refl).
  assert (H1 : Kc lo ((A ++ [k]) ++ o :: S ++ c :: B) (s_heap s)) by (by rewrite <- app_assoc).
  unfold walk. apply wp_bind. eapply w_plain; [lia|done|exact H1|by rewrite Ko|apply at_fresh|]. cbn [w_x]. unfold gf_sw at 1. apply wp_bind, wp_get_kind. rewrite (kc_at _ _ _ _ _ H1), Ko. kred. cbv iota.
  apply wp_bind. eapply wp_mono; [apply (IH false ps ps' lo (A ++ [k]) o S c B f s); [done|done|done|done|done|done|done|lia]|].
  intros r s1 (-> & B1 & S' & K1 & M1 & M2). cbv beta. apply wp_ret. cbn [fst snd]. change (cursor (s_heap s1) [] (c :: B)) with (Some (fst c)).
  assert (K1' : Kc lo ((A ++ [k]) ++ o :: S' ++ c :: B) (s_heap s1)) by (rewrite <- !app_assoc in *; exact K1).
  rewrite (cursor_next _ _ _ _ _ K1'). pose proof (fst_length _ _ M2) as Ls.
  eapply w_jumped_h; [done|exact K1|lia| |].
  { intros E. rewrite M1. by apply (proj2 (no_raw deep E) _ _ _ _ P). }
  assert (K2 : Kc lo ((((A ++ [k]) ++ [o]) ++ S') ++ c :: B) (s_heap s1)) by (rewrite <- app_assoc; exact K1).
  eapply w_plain; [lia|done|exact K2|by rewrite Kcl|apply at_target|]. cbn [w_x]. unfold gf_sw at 1. apply wp_bind, wp_get_kind.
  rewrite (kc_at _ _ _ _ _ K2), Kcl. kred. cbv iota. apply wp_ret. cbn [fst snd]. apply wp_ret. cbn [snd].
  apply wp_bind, wp_get_kind. rewrite (kc_at _ _ _ _ _ K2), Kcl. kred. cbv iota. apply wp_bind. apply (wp_ok _ tt _ _ s1); [eapply plain_hook; [exact K2|by rewrite Kcl]|]. apply wp_get_next.
  destruct B as [|d B]; [done|]. split.
  - split; [done|]. split; [done|]. exists S'. rewrite <- !app_assoc in *. cbn [app] in *. done.
  - cbn [cursor]. apply (kc_link _ _ _ K2 _ c d B eq_refl).
Qed.

Lemma wp_set_kind p k (Q : unit -> st -> Prop) s : Q tt (mkSt (set_kind (s_heap s) p k) (s_buf s)) -> wp (do_set_kind p k) Q s.
Proof. done. Qed.
(** The nodes [S] show the lexemes [ts]; the first identifier is perhaps a type
    already. *)
Definition near (deep : bool) (S : list cell) (ts : list lexeme) : Prop :=
  map snd S = ts \/ exists c S', S = tcell deep c :: S' /\ map snd (c :: S') = ts.
Lemma near_exact deep S ts : near deep S ts -> head (map snd ts) <> Some KRaw -> map snd S = ts.
Proof.
  intros [E|(c & S' & -> & <-)] N; [done|]. rewrite tcell_other; [done|]. intros E. apply N. cbn [map head hd_error]. by rewrite E.
Qed.
Lemma near_raw deep S t ts : near deep S ((t, KRaw) :: ts) -> exists l x S', S = (l, x) :: S' /\ map snd S' = ts /\ exists k1, tcell deep (l, x) = (l, (t, k1)) /\ (k1 = KRaw \/ k1 = KParamType).
Proof.
  intros [E|(c & S' & -> & E)].
  - destruct S as [|[l x] S]; [done|]. cbn [map snd] in E. injection E as -> E. exists l, (t, KRaw), S. split; [done|]. split; [done|].
    unfold tcell, typed. cbn [fst snd]. rewrite bool_decide_eq_true_2 by done. rewrite andb_true_r. destruct deep; eauto.
  - destruct c as [l x]. cbn [map snd] in E. injection E as -> E. exists l, (typed deep (t, KRaw)), S'. split; [done|]. split; [done|].
    unfold tcell, typed. cbn [fst snd]. rewrite (bool_decide_eq_true_2 (KRaw = KRaw)) by done. destruct deep; cbn [andb fst snd]; [|eauto].
    rewrite bool_decide_eq_false_2 by done. eauto.
Qed.
Lemma tcell_snd deep S : map snd (map (tcell deep) S) = map (typed deep) (map snd S).
Proof. by rewrite !map_map. Qed.
Lemma tcell_fst deep S : map fst (map (tcell deep) S) = map fst S.
Proof. by rewrite !map_map. Qed.
(** The same with parentheses anywhere. *)
Inductive loose (deep : bool) (name typ : kind) : bool -> list lexeme -> list lexeme -> Prop :=
| lo_nil b : loose deep name typ b [] []
| lo_raw b t ts ts' : loose deep name typ true ts ts' -> loose deep name typ b ((t, KRaw) :: ts) ((t, if b then typ else name) :: ts')
| lo_other b t k ts ts' : k ∉ plain_out -> loose deep name typ b ts ts' -> loose deep name typ b ((t, k) :: ts) ((t, k) :: ts')
| lo_square b t ps u ts ts' : squares (map snd ps) -> loose deep name typ b ts ts' ->
    loose deep name typ b ((t, KSquareL) :: ps ++ (u, KSquareR) :: ts) ((t, KSquareL) :: map (typed deep) ps ++ (u, KSquareR) :: ts')
| lo_func b t u ps ps' v ts ts' : params deep KParamName KParamType ps ps' -> loose deep name typ b ts ts' ->
    loose deep name typ b ((t, KFunc) :: (u, KParenL) :: ps ++ (v, KParenR) :: ts)
                            ((t, KFunc) :: (u, KParenL) :: ps' ++ (v, KParenR) :: ts').
Lemma refines_loose deep name typ b ts ts' : refines deep name typ b ts ts' -> loose deep name typ b ts ts'.
Proof.
  induction 1 as [name typ b|name typ b t ts ts' R IH|name typ b t k ts ts' Nk R IH|name typ b t ps u ts ts' Sq R IH|name typ b t u ps ps' v ts ts' P R IH|b t u ts ts' R IH].
  - constructor.
  - by constructor.
  - constructor; [|done]. intros Hin. apply Nk. unfold plain_out in Hin. rewrite !elem_of_cons in *. tauto.
  - by constructor.
  - by constructor.
  - constructor. constructor; [|done]. apply mem_kind_false. reflexivity.
Qed.
Lemma refine_walk deep n name typ b ts ts' : (forall m, m < n -> PW deep m) -> loose deep name typ b ts ts' -> length ts <= n -> name ∈ refined -> typ ∈ refined -> name <> KRaw -> typ <> KRaw ->
  forall lo (A S : list cell) (c : cell) (B : list cell) f fuel count (w : wl bool) (s : st),
  near deep S ts -> knd c ∈ [KComma; KParenR] -> base (s_heap s) -> Kc lo (A ++ S ++ c :: B) (s_heap s) ->
  b = ((count =? 1)%Z || w_x w) -> 6 * length S + 3 <= f -> length S + 1 <= fuel -> at_node (cursor (s_heap s) A (S ++ c :: B)) w ->
  wp (iterM fuel (walk_body false (hs deep) (pp_sw f name typ count (hs deep))) (cursor (s_heap s) A (S ++ c :: B)) w) (fun r => walked lo A S ts' (c :: B) (snd r)) s.
Proof.
  intros IHn R. induction R as [b|b t ts ts' R IH|b t k ts ts' Nk R IH|b t ps u ts ts' Sq R IH|b t u ps ps' v ts ts' P R IH];
    intros Ln Rn Rt Nn Nt lo A S c B f fuel count w s Es Kc' Bs H Eb Lf Lfu At.
  - apply near_exact in Es; [|done]. apply map_eq_nil in Es as ->. cbn [app cursor] in *.
    assert (Nc : knd c <> KRaw) by (intros E; rewrite E in Kc'; by apply (mem_kind_false KRaw [KComma; KParenR])).
    eapply w_plain; [lia|done|exact H|done|done|]. apply (wp_ok _ (Stop, w_x w) _ _ s).
    { unfold pp_sw, bind, get_kind, ret. cbn [res_bind]. rewrite (kc_at _ _ _ _ _ H), (proj2 (mem_kind_true _ _) Kc'). done. }
    cbn [fst snd]. split; [done|]. split; [done|]. by exists [].
  - destruct (near_raw _ _ _ _ Es) as (l & x & S' & -> & Es' & k1 & Tk & Hk1). rename S' into S.
    cbn [app cursor fst length] in *. change (Some l) with (Some (fst ((l, x) : cell))). eapply (w_hook deep lo A (l, x)); [lia|done|exact H|done|]. intros s1 B1 H1. cbn [fst].
    rewrite Tk in H1.
    assert (Go : forall k2 named2, k2 ∈ refined -> true = ((count =? 1)%Z || named2) -> k2 = (if b then typ else name) ->
      wp (do_set_kind (Some l) k2 ;;; ret (Cont, named2)) (fun ax s' => match fst ax with
        | Stop => walked lo A ((l, x) :: S) ((t, if b then typ else name) :: ts') (c :: B) (snd (mkWl false None (snd ax), Some l)) s'
        | Cont => wp (iterM (pred fuel) (walk_body false (hs deep) (pp_sw f name typ count (hs deep))) (next_of (s_heap s') (Some l)) (mkWl false None (snd ax)))
            (fun r => walked lo A ((l, x) :: S) ((t, if b then typ else name) :: ts') (c :: B) (snd r)) s'
        | Jump p => wp (iterM (pred fuel) (walk_body false (hs deep) (pp_sw f name typ count (hs deep))) (next_of (s_heap s') (Some l)) (mkWl (ptr_eqb p None) p (snd ax)))
            (fun r => walked lo A ((l, x) :: S) ((t, if b then typ else name) :: ts') (c :: B) (snd r)) s' end) s1).
    { intros k2 named2 R2 E2 Ek. destruct (kc_set lo A l t k1 (S ++ c :: B) _ k2 B1 H1 R2) as [B2 H2]. apply wp_bind, wp_set_kind, wp_ret. cbn [fst snd s_heap].
      pose proof (cursor_next _ _ _ _ _ H2) as Nx. cbn [fst] in Nx. rewrite Nx. eapply wp_mono.
      - apply (IH ltac:(lia) Rn Rt Nn Nt lo (A ++ [(l, (t, k2))]) S c B f (pred fuel) count (mkWl false None named2) (mkSt (set_kind (s_heap s1) (Some l) k2) (s_buf s1))); cbn [s_heap w_x];
          [by left|done|done|by rewrite <- app_assoc|done|lia|lia|apply at_fresh].
      - intros r s' Hw. rewrite <- Ek. apply (walked_more lo A [(l, x)] [(l, (t, k2))] S ts' (c :: B) _ s'); done. }
    unfold pp_sw at 1. apply wp_bind, wp_get_kind. rewrite (kc_kind _ _ _ _ _ _ _ H1).
    replace (mem_kind k1 [KComma; KParenR]) with false by (by destruct Hk1 as [-> | ->]). replace (kind_eqb k1 KSquareL) with false by (by destruct Hk1 as [-> | ->]).
    replace (mem_kind k1 [KComment; KParenL; KTab; KNewLine; KSpace]) with false by (by destruct Hk1 as [-> | ->]). replace (kind_eqb k1 KFunc) with false by (by destruct Hk1 as [-> | ->]).
    replace (mem_kind k1 [KRaw; KParamType; KParamName]) with true by (by destruct Hk1 as [-> | ->]). cbv iota.
    destruct (count =? 1)%Z eqn:Ec; cbn [orb] in Eb.
    { apply Go; [done|done|by rewrite Eb]. }
    destruct (w_x w) eqn:Ew; cbn [negb]; (apply Go; [done|done|by rewrite Eb]).
  - assert (Nr : k <> KRaw) by (intros ->; apply Nk; apply mem_kind_true; reflexivity).
    apply near_exact in Es; [|cbn [map snd head hd_error]; congruence]. destruct S as [|[l [t' k']] S]; [done|]. cbn [map snd] in Es. injection Es as -> -> Es. cbn [app cursor fst length] in *.
    change (Some l) with (Some (fst ((l, (t, k)) : cell))). eapply w_plain; [lia|done|exact H|exact Nr|done|]. cbn [fst].
    apply (wp_ok _ (Cont, w_x w) _ _ s). { eapply pp_other; [exact (kc_kind _ _ _ _ _ _ _ H)|exact Nk]. }
    cbn [fst snd]. pose proof (cursor_next _ _ _ _ _ H) as Nx. cbn [fst] in Nx. rewrite Nx. eapply wp_mono.
    + apply (IH ltac:(lia) Rn Rt Nn Nt lo (A ++ [(l, (t, k))]) S c B f (pred fuel) count (mkWl false None (w_x w)) s); [by left|done|done|by rewrite <- app_assoc|done|lia|lia|apply at_fresh].
    + intros r s' Hw. apply (walked_more lo A [(l, (t, k))] [(l, (t, k))] S ts' (c :: B) _ s'); done.
  - apply near_exact in Es; [|done]. destruct S as [|[l [t' k']] S]; [done|]. cbn [map snd] in Es. injection Es as -> -> Es. apply map_eq_app in Es as (P & S2 & -> & EP & Es).
    destruct S2 as [|[l2 [u' k2]] S2]; [done|]. cbn [map snd] in Es. injection Es as -> -> Es.
    cbn [app cursor fst length] in *. rewrite app_length in Lf, Lfu. cbn [length] in Lf, Lfu.
    rewrite app_length in Ln. cbn [length] in Ln. rewrite <- app_assoc in *. cbn [app] in *.
    change (Some l) with (Some (fst ((l, (t, KSquareL)) : cell))). eapply w_plain; [lia|done|exact H|done|done|]. cbn [fst].
    unfold pp_sw at 1. apply wp_bind, wp_get_kind. rewrite (kc_kind _ _ _ _ _ _ _ H). kred. cbv iota. apply wp_bind.
    eapply wp_mono; [apply (square_deep deep lo A (l, (t, KSquareL)) P (l2, (u, KSquareR)) (S2 ++ c :: B) f s Bs H); [done|done|by rewrite EP|lia]|].
    intros r s1 (-> & B1 & H1). cbv beta. apply wp_ret. cbn [fst snd]. pose proof (cursor_next _ _ _ _ _ H1) as Nx. cbn [fst] in Nx. rewrite Nx.
    assert (H2 : Kc lo ((A ++ [(l, (t, KSquareL))]) ++ map (tcell deep) P ++ (l2, (u, KSquareR)) :: S2 ++ c :: B) (s_heap s1)) by (rewrite <- app_assoc; exact H1).
    assert (H3 : Kc lo ((A ++ (l, (t, KSquareL)) :: map (tcell deep) P) ++ (l2, (u, KSquareR)) :: S2 ++ c :: B) (s_heap s1)) by (rewrite <- app_assoc; exact H1).
    change (Some l2) with (Some (fst ((l2, (u, KSquareR)) : cell))). eapply w_jumped_h; [done|exact H2|rewrite map_length; lia| |].
    { intros ->. rewrite tcell_snd. apply typed_no_raw. }
    rewrite map_length. eapply w_plain; [lia|done|exact H3|done|apply at_target|]. cbn [w_x fst].
    apply (wp_ok _ (Cont, w_x w) _ _ s1). { eapply pp_other; [exact (kc_kind _ _ _ _ _ _ _ H3)|apply mem_kind_false; reflexivity]. }
    cbn [fst snd]. pose proof (cursor_next _ _ _ _ _ H3) as Nx3. cbn [fst] in Nx3. rewrite Nx3. eapply wp_mono.
    + apply (IH ltac:(lia) Rn Rt Nn Nt lo ((A ++ (l, (t, KSquareL)) :: map (tcell deep) P) ++ [(l2, (u, KSquareR))]) S2 c B f _ count (mkWl false None (w_x w)) s1);
        [by left|done|done|by rewrite <- !app_assoc in *|done|lia|lia|apply at_fresh].
    + intros r s' Hw. rewrite <- app_assoc in Hw.
      pose proof (walked_more lo A ((l, (t, KSquareL)) :: P ++ [(l2, (u, KSquareR))]) ((l, (t, KSquareL)) :: map (tcell deep) P ++ [(l2, (u, KSquareR))]) S2 ts' (c :: B) (snd r) s') as Hw'.
      rewrite !map_cons, !map_app, tcell_fst, tcell_snd in Hw'. cbn [map snd app] in Hw'. rewrite EP, <- !app_assoc in Hw'. apply Hw'; [done|exact Hw].
  - apply near_exact in Es; [|done]. destruct S as [|[l [t' k']] S]; [done|]. cbn [map snd] in Es. injection Es as -> -> Es. destruct S as [|[l1 [u' k1]] S]; [done|]. cbn [map snd] in Es. injection Es as -> -> Es.
    apply map_eq_app in Es as (P0 & S2 & -> & EP & Es).
    destruct S2 as [|[l2 [v' k2]] S2]; [done|]. cbn [map snd] in Es. injection Es as -> -> Es. cbn [app cursor fst length] in *. rewrite app_length in Lf, Lfu. cbn [length] in Lf, Lfu.
    rewrite app_length in Ln. cbn [length] in Ln. rewrite <- app_assoc in *. cbn [app] in *.
    change (Some l) with (Some (fst ((l, (t, KFunc)) : cell))). eapply w_plain; [lia|done|exact H|done|done|]. cbn [fst].
    unfold pp_sw at 1. apply wp_bind, wp_get_kind. rewrite (kc_kind _ _ _ _ _ _ _ H). kred. cbv iota. apply wp_bind.
    eapply wp_mono; [apply (param_func deep (length ps) lo A (l, (t, KFunc)) (l1, (u, KParenL)) P0 (l2, (v, KParenR)) (S2 ++ c :: B) f ps ps' s); [apply IHn; lia|done|lia|done|done|done|done|done|done|by destruct S2|lia]|].
    intros r s1 [(_ & B1 & P1 & K1 & M1 & M2) ->]. cbv beta. apply wp_ret. cbn [fst snd].
    pose proof (fst_length _ _ M2) as Lp.
    assert (K2 : Kc lo (A ++ (l, (t, KFunc)) :: (l1, (u, KParenL)) :: P1 ++ (l2, (v, KParenR)) :: S2 ++ c :: B) (s_heap s1)) by (rewrite <- app_assoc in K1; exact K1).
    pose proof (cursor_next _ _ _ _ _ K2) as Nx. cbn [fst] in Nx. rewrite Nx.
    assert (exists d D, S2 ++ c :: B = d :: D) as (d & D & Ed) by (destruct S2; cbn [app]; eauto). rewrite Ed. change (cursor (s_heap s1) [] (d :: D)) with (Some (fst d)).
    assert (K3 : Kc lo ((A ++ [(l, (t, KFunc))]) ++ ((l1, (u, KParenL)) :: P1 ++ [(l2, (v, KParenR))]) ++ d :: D) (s_heap s1)).
    { rewrite <- app_assoc. cbn [app]. rewrite <- app_assoc. cbn [app]. rewrite <- Ed. exact K2. }
    assert (Ex : (l1, (u, KParenL)) :: P1 ++ (l2, (v, KParenR)) :: d :: D = ((l1, (u, KParenL)) :: P1 ++ [(l2, (v, KParenR))]) ++ d :: D) by (cbn [app]; by rewrite <- app_assoc).
    rewrite Ex. eapply w_jumped_h; [done|exact K3|cbn [length]; rewrite app_length; cbn [length]; lia| |].
    { intros E. cbn [map snd]. rewrite !map_app, M1. cbn [map snd]. apply not_elem_of_cons. split; [done|]. apply not_elem_of_app. split; [by apply (proj2 (no_raw deep E) _ _ _ _ P)|].
      apply not_elem_of_cons. split; [done|apply not_elem_of_nil]. }
    cbn [length]. rewrite app_length. cbn [length].
    assert (Ec : Some (fst d) = cursor (s_heap s1) (A ++ (l, (t, KFunc)) :: (l1, (u, KParenL)) :: P1 ++ [(l2, (v, KParenR))]) (S2 ++ c :: B)) by (by rewrite Ed).
    rewrite Ec. eapply wp_mono.
    + apply (IH ltac:(lia) Rn Rt Nn Nt lo _ S2 c B f _ count (mkWl false _ (w_x w)) s1); [by left|done|done| |done|lia|lia|apply at_target].
      rewrite <- app_assoc. cbn [app]. rewrite <- app_assoc. exact K2.
    + intros r s' Hw.
      assert (Em : map fst ((l, (t, KFunc)) :: (l1, (u, KParenL)) :: P1 ++ [(l2, (v, KParenR))]) = map fst ((l, (t, KFunc)) :: (l1, (u, KParenL)) :: P0 ++ [(l2, (v, KParenR))])).
      { rewrite !map_cons, !map_app, M2. done. }
      pose proof (walked_more lo A _ _ S2 ts' (c :: B) _ s' Em Hw) as Hw'.
      rewrite !map_cons, map_app in Hw'. cbn [map snd app] in Hw'. rewrite M1, <- !app_assoc in Hw'. exact Hw'.
Qed.
Lemma kind_no (k : kind) l (P : Prop) : k ∈ l -> mem_kind k l = false -> P.
Proof. intros H E. by apply mem_kind_false in E. Qed.
Lemma refines_white deep name typ b x k ts ts' : refines deep name typ b ((x, k) :: ts) ts' -> k ∈ white -> exists ts2, ts' = (x, k) :: ts2 /\ refines deep name typ b ts ts2.
Proof.
  intros R Hk. inversion R; subst; try (by apply (kind_no _ _ _ Hk)). eauto.
Qed.
Lemma refines_word deep name typ b x k ts ts' : refines deep name typ b ((x, k) :: ts) ts' -> k ∉ white ->
  kind_eqb k KParenR = false /\ mem_kind k [KComment; KComma; KParenL; KTab; KNewLine; KSpace] = false.
Proof.
  intros R Hk. inversion R as [|? ? ? ? ? ? R'|? ? ? ? ? ? ? Nk R'|? ? ? ? ? ? ? ? Sq R'|? ? ? ? ? ? ? ? ? ? Pm R'|]; subst; try done.
  split; [apply (kind_elem k KParenR _ Nk); reflexivity|]. apply mem_kind_false. intros Hin. rewrite !elem_of_cons in Hin.
  destruct Hin as [->|[->|[->|[->|[->|[->|Hin]]]]]]; [apply Hk|apply Nk|apply Nk|apply Hk|apply Hk|apply Hk|by apply elem_of_nil in Hin]; apply mem_kind_true; reflexivity.
Qed.
Lemma words_white x k ts : k ∈ white -> words ((x, k) :: ts) = words ts.
Proof. intros H. cbn [words]. rewrite (bool_decide_eq_true_2 _ H). rewrite bool_decide_eq_false_2; [done|]. intros H2. unfold white in H. rewrite !elem_of_cons in H.
  destruct H as [->|[->|[->|[->|H]]]]; [by apply (kind_no _ _ _ H2)..|by apply elem_of_nil in H].
Qed.
Lemma one_param deep n rcv lo (c : cell) (B : list cell) f Q : (forall m, m < n -> PW deep m) -> knd c ∈ [KComma; KParenR] ->
  forall (P A : list cell) p' fuel (w : wl unit) (s : st),
  refines deep (recv_name rcv) (recv_type rcv) (bool_decide (words (map snd P) = 1)) (map snd P) p' -> length P <= n ->
  base (s_heap s) -> Kc lo (A ++ P ++ c :: B) (s_heap s) -> 6 * length P + 4 <= f -> length P <= fuel -> at_node (cursor (s_heap s) A (P ++ c :: B)) w ->
  (forall P' s' w', map snd P' = p' -> map fst P' = map fst P -> base (s_heap s') -> Kc lo (A ++ P' ++ c :: B) (s_heap s') -> at_node (Some (fst c)) w' ->
     wp (iterM (fuel - length P) (walk_body false (hs deep) (pr_sw f rcv (hs deep))) (Some (fst c)) w') Q s') ->
  wp (iterM fuel (walk_body false (hs deep) (pr_sw f rcv (hs deep))) (cursor (s_heap s) A (P ++ c :: B)) w) Q s.
Proof.
  intros IHn Kc' P. induction P as [|[l [t k]] P IH]; intros A p' fuel w s R Ln Bs H Lf Lfu At HQ; cbn [map snd length app] in *.
  { inversion R; subst. rewrite Nat.sub_0_r in HQ. cbn [cursor]. by apply (HQ []). }
  destruct (decide (k ∈ white)) as [Hk|Hk].
  - assert (Nr : k <> KRaw) by (intros ->; by apply (kind_no _ _ _ Hk)).
    destruct (refines_white _ _ _ _ _ _ _ _ R Hk) as (p2 & -> & R2). rewrite (words_white _ _ _ Hk) in R2. cbn [cursor fst].
    change (Some l) with (Some (fst ((l, (t, k)) : cell))). eapply w_plain; [lia|done|exact H|exact Nr|done|]. cbn [fst].
    apply (wp_ok _ (Cont, tt) _ _ s).
    { unfold pr_sw, bind, get_kind, ret. cbn [res_bind]. rewrite (kc_kind _ _ _ _ _ _ _ H). unfold white in Hk. rewrite !elem_of_cons in Hk.
      destruct Hk as [->|[->|[->|[->|Hk]]]]; [reflexivity..|by apply elem_of_nil in Hk]. }
    cbn [fst snd]. pose proof (cursor_next _ _ _ _ _ H) as Nx. cbn [fst] in Nx. rewrite Nx.
    apply (IH (A ++ [(l, (t, k))]) p2); [done|lia|done|by rewrite <- app_assoc|lia|lia|apply at_fresh|].
    intros P' s' w' E1 E2 B' H' At'. replace (pred fuel - length P) with (fuel - Datatypes.S (length P)) by lia.
    apply (HQ ((l, (t, k)) :: P')); [cbn [map]; by rewrite E1|cbn [map]; by rewrite E2|done|by rewrite <- app_assoc in H'|done].
  - destruct (refines_word _ _ _ _ _ _ _ _ R Hk) as [T1 T2]. cbn [cursor fst]. change (Some l) with (Some (fst ((l, (t, k)) : cell))).
    eapply (w_hook deep lo A (l, (t, k))); [lia|done|exact H|done|]. cbn [fst]. intros s0 B0 H0.
    set (c0 := tcell deep (l, (t, k))) in *. assert (F0 : fst c0 = l) by done.
    assert (T3 : kind_eqb (knd c0) KParenR = false /\ mem_kind (knd c0) [KComment; KComma; KParenL; KTab; KNewLine; KSpace] = false).
    { destruct (tcell_kind deep (l, (t, k))) as [[_ [E|E]]|[_ E]]; fold c0 in E; rewrite E; done. }
    assert (W0' : words (snd c0 :: map snd P) = words ((t, k) :: map snd P)).
    { unfold c0, tcell, typed. cbn [fst snd]. destruct (deep && bool_decide (k = KRaw)) eqn:E; [|done]. apply andb_true_iff in E as [_ E]. apply bool_decide_eq_true in E as ->. reflexivity. }
    unfold pr_sw at 1. apply wp_bind, wp_get_kind. pose proof (kc_at _ _ _ _ _ H0) as Kc0. rewrite F0 in Kc0. rewrite Kc0, (proj1 T3), (proj2 T3). cbv iota. apply wp_bind.
    destruct f as [|f]; [lia|]. rewrite paren_param_eq. apply wp_bind.
    pose proof (count_words lo A (c0 :: P) c B s0 B0 H0 Kc') as Ec. cbn [cursor app map] in Ec. rewrite F0, W0' in Ec.
    apply (wp_ok _ _ _ _ s0 Ec). unfold walk. apply wp_bind. eapply wp_mono.
    { pose proof (refine_walk deep n _ _ _ _ _ IHn (refines_loose _ _ _ _ _ _ R)) as RW. destruct (recv_ok rcv) as (N1 & N2 & N3 & N4).
      specialize (RW ltac:(cbn [length]; rewrite map_length; lia) N3 N4 N1 N2 lo A (c0 :: P) c B f f (Z.of_nat (words ((t, k) :: map snd P))) (mkWl false None false) s0).
      cbn [cursor app] in RW. rewrite F0 in RW. apply RW; [|done|done|done| |cbn [length]; lia|cbn [length]; lia|apply at_fresh].
      - right. by exists (l, (t, k)), P.
      - cbn [w_x]. rewrite orb_false_r. apply eq_true_iff_eq. rewrite bool_decide_eq_true, Z.eqb_eq. lia. }
    intros r s1 (-> & B1 & S' & K1 & M1 & M2). apply wp_ret. apply wp_ret. cbn [fst snd cursor].
    destruct S' as [|[l' [t' k']] S']; [done|]. cbn [map fst] in M2. injection M2 as -> M2. cbn [app] in K1.
    pose proof (cursor_next _ _ _ _ _ K1) as Nx. cbn [fst] in Nx. rewrite Nx. pose proof (fst_length _ _ M2) as Ls.
    assert (K2 : Kc lo ((A ++ [(l, (t', k'))]) ++ S' ++ c :: B) (s_heap s1)) by (by rewrite <- app_assoc).
    eapply w_jumped_h; [done|exact K2|lia| |].
    { intros E. destruct (recv_ok rcv) as (N1 & N2 & _). pose proof (proj1 (no_raw deep E) _ _ _ _ _ R N1 N2) as NR. rewrite <- M1 in NR. cbn [map] in NR. by apply not_elem_of_cons in NR as [_ NR]. }
    replace (pred fuel - length S') with (fuel - Datatypes.S (length P)) by lia.
    apply (HQ ((l, (t', k')) :: S')); [done|cbn [map fst]; by rewrite M2|done|done|apply at_target].
Qed.
Lemma params_walk deep n rcv lo (c : cell) (B : list cell) f name typ ps ps' : (forall m, m < n -> PW deep m) -> knd c = KParenR -> params deep name typ ps ps' -> name = recv_name rcv -> typ = recv_type rcv ->
  length ps <= n -> forall (A S : list cell) fuel (w : wl unit) (s : st), map snd S = ps -> base (s_heap s) -> Kc lo (A ++ S ++ c :: B) (s_heap s) ->
  6 * length S + 4 <= f -> length S + 1 <= fuel -> at_node (cursor (s_heap s) A (S ++ c :: B)) w ->
  wp (iterM fuel (walk_body false (hs deep) (pr_sw f rcv (hs deep))) (cursor (s_heap s) A (S ++ c :: B)) w) (fun r => walked lo A S ps' (c :: B) (snd r)) s.
Proof.
  intros IHn Kcl P. induction P as [name typ p p' R|name typ p p' t ps ps' R P IH]; intros -> -> Ln A S fuel w s Es Bs H Lf Lfu At.
  - subst p. rewrite map_length in Ln. apply (one_param deep n rcv lo c B f _ IHn) with (p' := p'); [rewrite Kcl; apply mem_kind_true; reflexivity|done|done|done|done|lia|lia|done|].
    intros P' s' w' E1 E2 B' H' At'. pose proof H' as H2. rewrite app_assoc in H2. eapply w_plain; [lia|done|exact H2|by rewrite Kcl|done|]. apply (wp_ok _ (Stop, tt) _ _ s').
    { unfold pr_sw, bind, get_kind, ret. cbn [res_bind]. rewrite (kc_at _ _ _ _ _ H2), Kcl. reflexivity. }
    cbn [fst snd]. split; [done|]. split; [done|]. by exists P'.
  - apply map_eq_app in Es as (P0 & S2 & -> & <- & Es). destruct S2 as [|[l2 [u' k2]] S2]; [done|]. cbn [map snd] in Es. injection Es as -> -> Es.
    rewrite !app_length in *. rewrite map_length in Ln. cbn [length] in *. rewrite <- app_assoc in *. cbn [app] in *.
    apply (one_param deep n rcv lo (l2, (t, KComma)) (S2 ++ c :: B) f _ IHn) with (p' := p'); [apply mem_kind_true; reflexivity|done|lia|done|done|lia|lia|done|].
    intros P' s' w' E1 E2 B' H' At'.
    pose proof H' as H2. rewrite app_assoc in H2. eapply w_plain; [lia|done|exact H2|done|done|]. apply (wp_ok _ (Cont, tt) _ _ s').
    { unfold pr_sw, bind, get_kind, ret. cbn [res_bind]. rewrite (kc_at _ _ _ _ _ H2). reflexivity. }
    cbn [fst snd]. pose proof (cursor_next _ _ _ _ _ H2) as Nx. cbn [fst] in Nx. rewrite Nx. eapply wp_mono.
    + apply IH; [done|done|lia|done|done| |lia|lia|apply at_fresh]. rewrite <- !app_assoc in *. exact H'.
    + intros r s2 Hw. rewrite <- app_assoc in Hw.
      assert (Em : map fst (P' ++ [(l2, (t, KComma))]) = map fst (P0 ++ [(l2, (t, KComma))])) by (by rewrite !map_app, E2).
      pose proof (walked_more lo A _ _ S2 ps' (c :: B) _ s2 Em Hw) as Hw'. rewrite map_app, <- !app_assoc, E1 in Hw'. exact Hw'.
Qed.
Lemma paren_walk deep n : PW deep n.
Proof.
  induction n as [n IH] using lt_wf_ind. intros rcv ps ps' lo A o S c B f s P Ln Es Ko Kcl Bs H Lf.
  destruct f as [|f]; [lia|]. rewrite paren_run_eq. apply wp_bind, wp_get_kind. rewrite (kc_at _ _ _ _ _ H), Ko. kred. cbv iota. unfold walk. apply wp_bind.
  eapply w_plain; [lia|done|exact H|by rewrite Ko|apply at_fresh|]. cbn [w_x]. apply (wp_ok _ (Cont, tt) _ _ s).
  { unfold pr_sw, bind, get_kind, ret. cbn [res_bind]. rewrite (kc_at _ _ _ _ _ H), Ko. reflexivity. }
  cbn [fst snd]. rewrite (cursor_next _ _ _ _ _ H).
  eapply wp_mono; [eapply (params_walk deep n rcv lo c B f _ _ ps ps' IH Kcl P); [done|done|done|done|done|by rewrite <- app_assoc|lia|lia|apply at_fresh]|].
  intros r s' Hw. by apply wp_ret.
Qed.

(** ** Results *)
Lemma find_here f l (s : st) : 0 < f -> kind_of (s_heap s) (Some l) <> KComment -> find_next f (Some l) [KComment] opt_rev [] s = Ok (s, Some l).
Proof.
  intros Lf Hk. assert (W : wp (find_next f (Some l) [KComment] opt_rev []) (fun r s' => r = Some l /\ s' = s) s).
  { unfold find_next. apply wp_bind, step_iterM; [done|]. apply wp_bind. apply (wp_ok _ tt _ _ s); [done|]. apply wp_bind, wp_get_kind, wp_ret. cbn [fst snd].
    assert (E : find_decide [KComment] opt_rev (kind_of (s_heap s) (Some l)) (count_step (kind_of (s_heap s) (Some l)) (0, 0, 0)%Z) = false).
    { unfold find_decide. destruct (count_step _ _) as [[a b] c]. cbn [o_inP o_inC o_inS o_outP o_outC o_outS opt_rev o_rev andb].
      rewrite contain_new, bool_decide_eq_false_2; [done|]. by rewrite elem_of_list_singleton. }
    rewrite E. apply wp_ret. done. }
  unfold wp in W. destruct (find_next _ _ _ _ _ s) as [[s' a]| |]; [|done..]. by destruct W as [-> ->].
Qed.
Lemma sr_take l buf (s : st) : kind_of (s_heap s) (Some l) ∉ [KSpace; KNewLine; KCurlyL; KComment] -> sr_step [] l buf s = Ok (s, (append_unrepeatable buf [Some l], true)).
Proof.
  intros Hc. unfold sr_step, bind, handle_hook, get_kind, ret. cbn [fold_left res_bind].
  rewrite (kinds_out _ _ [KNewLine; KSpace; KCurlyL] Hc) by reflexivity. rewrite (kind_elem _ KComment _ Hc) by reflexivity. done.
Qed.
Lemma sr_cells lo A d B (s : st) : forall W2 W1 fuel, base (s_heap s) -> Kc lo (A ++ (W1 ++ W2) ++ d :: B) (s_heap s) -> length W2 < fuel ->
  (forall c : cell, c ∈ W2 -> knd c ∉ [KSpace; KNewLine; KCurlyL; KComment]) -> knd d ∈ [KNewLine; KSpace; KCurlyL] ->
  iterM fuel (sr_step []) (cursor (s_heap s) (A ++ W1) (W2 ++ d :: B)) (map Some (map fst W1)) s = Ok (s, (map Some (map fst (W1 ++ W2)), Some (fst d))).
Proof.
  induction W2 as [|c W2 IH]; intros W1 fuel Bs H Lf Hw Hd; (destruct fuel as [|fuel]; [cbn [length] in Lf; lia|]).
  - rewrite app_nil_r. cbn [app cursor]. unfold iterM. cbn [loop]. rewrite app_nil_r in H. rewrite app_assoc in H. cbn [fst snd].
    unfold sr_step, bind, handle_hook, get_kind, ret. cbn [fold_left res_bind]. rewrite (kc_at _ _ _ _ _ H), (proj2 (mem_kind_true _ _) Hd). done.
  - assert (H1 : Kc lo ((A ++ W1) ++ c :: W2 ++ d :: B) (s_heap s)) by (rewrite <- !app_assoc in *; exact H).
    assert (H2 : Kc lo (A ++ ((W1 ++ [c]) ++ W2) ++ d :: B) (s_heap s)) by (rewrite <- !app_assoc in *; exact H).
    pose proof (Hw c ltac:(by left)) as Hc. cbn [app cursor]. cbn [length] in Lf.
    pose proof (IH (W1 ++ [c]) fuel Bs H2 ltac:(lia) (fun x Hx => Hw x (elem_of_list_further _ _ _ Hx)) Hd) as IH'.
    unfold iterM in *. cbn [loop]. cbn [fst snd]. rewrite sr_take by (by rewrite (kc_at _ _ _ _ _ H1)). cbn [res_bind fst snd].
    assert (Nd : fst c ∉ map fst W1).
    { intros Hin. apply elem_of_list_fmap in Hin as (x & E & Hx). apply (kc_notin lo (A ++ W1) c _ _ x Bs H1); [left; apply elem_of_app; by right|done]. }
    rewrite (unrep_new (map fst W1) (fst c) Nd). rewrite (cursor_next _ _ _ _ _ H1). rewrite map_app in IH'. cbn [map] in IH'. rewrite <- !app_assoc in *. cbn [app] in *. rewrite <- IH'. done.
Qed.
(** A single result. *)
Lemma word_run lo A sp v W d B f (s : st) : base (s_heap s) -> Kc lo (A ++ sp :: (v :: W) ++ d :: B) (s_heap s) -> knd sp = KSpace -> word (map snd (v :: W)) ->
  knd d ∈ [KNewLine; KSpace; KCurlyL] -> length W + 3 <= f ->
  wp (single_return f (Some (fst sp)) []) (fun r s' => r = Some (fst d) /\ base (s_heap s') /\ Kc lo (A ++ sp :: (fst v, merged (map snd (v :: W))) :: d :: B) (s_heap s')) s.
Proof.
  intros Bs H Ks (_ & Hw & Hh) Kd Lf. destruct f as [|f]; [lia|]. rewrite single_return_eq. apply wp_bind, wp_get_kind. rewrite (kc_at _ _ _ _ _ H), Ks. kred. cbv iota.
  apply wp_bind, wp_get_next. rewrite (kc_link _ _ _ H A sp v (W ++ d :: B) eq_refl).
  assert (H1 : Kc lo ((A ++ [sp]) ++ v :: W ++ d :: B) (s_heap s)) by (by rewrite <- app_assoc).
  assert (Kv : knd v ∉ [KSpace; KNewLine; KCurlyL; KComment]) by (apply Hw; cbn [map]; by left).
  assert (Nc : knd v <> KComment) by (intros E; rewrite E in Kv; apply Kv, mem_kind_true; reflexivity).
  apply wp_bind. eapply wp_ok; [apply find_here; [lia|by rewrite (kc_at _ _ _ _ _ H1)]|]. apply wp_bind, wp_get_kind. rewrite (kc_at _ _ _ _ _ H1).
  destruct (Hh (knd v) eq_refl) as [N1 N2]. rewrite (proj2 (kind_eqb_false _ _) N1), (proj2 (kind_eqb_false _ _) N2). apply wp_bind.
  eapply wp_ok.
  { apply (sr_cells lo (A ++ [sp]) d B s (v :: W) [] f Bs H1); [cbn [length]; lia| |done].
    intros c Hc. apply Hw. rewrite map_map. apply elem_of_list_fmap. by exists c. }
  cbn [fst snd]. rewrite app_nil_l.
  destruct s as [h b]. cbn [s_heap] in *. destruct (kc_merge lo (A ++ [sp]) v W (d :: B) h b Bs H1 ltac:(done)) as (h' & E & B' & H'). apply wp_bind.
  eapply wp_ok; [exact E|]. apply wp_ret. split; [done|]. split; [done|]. rewrite <- app_assoc in H'. exact H'.
Qed.
Definition gfw (f fuel : nat) (p : ptr) (w : wl (bool * bool)) := iterM fuel (walk_body false [] (gf_sw f (cset_new [KNewLine]) [])) p w.
Lemma gf_space_stop f l v (s : st) : kind_of (s_heap s) (Some l) = KSpace -> v = (true, true) ->
  gf_sw f (cset_new [KNewLine]) [] l v s = (p <- single_return f (Some l) [] ; ret (Jump p, (true, true))) s.
Proof. intros E ->. unfold gf_sw, bind at 1, get_kind. cbn [res_bind]. rewrite E. reflexivity. Qed.
Lemma gf_pass f l v (s : st) k : kind_of (s_heap s) (Some l) = k -> k = KParenR \/ k = KSquareR \/ k = KComma -> gf_sw f (cset_new [KNewLine]) [] l v s = Ok (s, (Cont, v)).
Proof. intros E Hk. unfold gf_sw, bind at 1, get_kind. destruct v. cbn [res_bind]. rewrite E. by destruct Hk as [-> |[-> | ->]]. Qed.
Lemma wp_eq {A} (m m' : M A) Q s : m s = m' s -> wp m' Q s -> wp m Q s.
Proof. unfold wp. by intros ->. Qed.

(** From an opening brace past the closing one. *)
Lemma gf_curly f lo (A Bd R : list cell) (br cl : cell) fuel w v (s : st) (Q : _ -> st -> Prop) : base (s_heap s) -> Kc lo (A ++ br :: Bd ++ cl :: R) (s_heap s) ->
  knd br = KCurlyL -> knd cl = KCurlyR -> nested KCurlyL KCurlyR (map snd (map snd Bd)) -> length Bd + 3 <= f -> length Bd + 2 <= fuel -> w_x w = v -> at_node (Some (fst br)) w ->
  wp (gfw f (fuel - (length Bd + 2)) (cursor (s_heap s) (A ++ br :: Bd ++ [cl]) R) (mkWl false None v)) Q s -> wp (gfw f fuel (Some (fst br)) w) Q s.
Proof.
  intros Bs H Kb Kl Ne Lf Lfu Hx At HQ. destruct v as [n prm].
  apply w_step; [lia|done|]. rewrite Hx. unfold gf_sw at 1. apply wp_bind, wp_get_kind. rewrite (kc_at _ _ _ _ _ H), Kb. kred. cbv iota. apply wp_bind.
  assert (H1 : Kc lo (A ++ (br :: Bd ++ [cl]) ++ R) (s_heap s)) by (cbn [app]; rewrite <- app_assoc; exact H).
  assert (H2 : Kc lo ((A ++ [br]) ++ Bd ++ cl :: R) (s_heap s)) by (rewrite <- app_assoc; exact H).
  assert (H3 : Kc lo ((A ++ br :: Bd) ++ cl :: R) (s_heap s)) by (rewrite <- app_assoc; exact H).
  pose proof (kc_stretch _ _ _ _ _ H1) as Sg. rewrite map_cons, map_app in Sg.
  eapply wp_mono; [eapply curly_pure; [exact Sg| |by rewrite (kc_at _ _ _ _ _ H)|by rewrite (kc_at _ _ _ _ _ H3)|rewrite map_length; lia]|].
  { rewrite (kc_kinds _ _ _ _ _ H2). exact Ne. }
  intros r s' [-> ->]. cbv beta. apply wp_ret. cbn [fst snd]. rewrite (cursor_next _ _ _ _ _ H).
  eapply w_jumped; [done|exact H2|lia|]. apply w_step; [lia|apply at_target|]. cbn [w_x].
  apply (wp_ok _ (Cont, (n, prm)) _ _ s). { unfold gf_sw, bind, get_kind, ret. cbn [res_bind]. rewrite (kc_at _ _ _ _ _ H3), Kl. reflexivity. }
  cbn [fst snd]. rewrite (cursor_next _ _ _ _ _ H3). rewrite <- app_assoc. cbn [app].
  replace (pred (pred fuel - length Bd)) with (fuel - (length Bd + 2)) by lia. exact HQ.
Qed.

Lemma list_walk f lo (X : list cell) Q sp ps ps' : parens KParamName KParamType ps ps' ->
  forall (A S : list cell) fuel (w : wl (bool * bool)) (s : st), map snd S = (sp, KSpace) :: ps -> base (s_heap s) -> Kc lo (A ++ S ++ X) (s_heap s) ->
  6 * length S + 8 <= f -> length S <= fuel -> w_x w = (true, true) -> at_node (cursor (s_heap s) A (S ++ X)) w ->
  (forall S' s' w' fuel', map snd S' = (sp, KSpace) :: ps' -> base (s_heap s') -> Kc lo (A ++ S' ++ X) (s_heap s') -> w_x w' = (true, true) -> at_node (cursor (s_heap s') (A ++ S') X) w' ->
     fuel - length S <= fuel' -> wp (gfw f fuel' (cursor (s_heap s') (A ++ S') X) w') Q s') ->
  wp (gfw f fuel (cursor (s_heap s) A (S ++ X)) w) Q s.
Proof.
  intros P A S fuel w s Es Bs H Lf Lfu Hx At HQ.
  destruct S as [|[ls0 [t' k']] S]; [done|]. cbn [map snd] in Es. injection Es as -> -> EP.
  destruct P as [t qs qs' u Pm].
  destruct S as [|[lo1 [t' k']] P0]; [done|]. cbn [map snd] in EP. injection EP as -> -> EP. apply map_eq_app in EP as (P1 & P2 & -> & EP & E2).
  destruct P2 as [|[lc [u' k']] [|]]; [done| |done]. cbn [map snd] in E2. injection E2 as -> ->.
  cbn [app length] in *. rewrite !app_length in *. cbn [app length cursor fst] in *. rewrite <- !app_assoc in *. cbn [app] in *.
  apply w_step; [lia|done|]. rewrite Hx. eapply wp_eq; [apply gf_space_stop; [exact (kc_kind _ _ _ _ _ _ _ H)|done]|]. apply wp_bind.
  destruct f as [|f0]; [lia|]. rewrite single_return_eq. apply wp_bind, wp_get_kind. rewrite (kc_kind _ _ _ _ _ _ _ H). kred. cbv iota. apply wp_bind, wp_get_next.
  pose proof (cursor_next _ _ _ _ _ H) as Nx. cbn [fst cursor] in Nx. rewrite Nx.
  assert (H1 : Kc lo ((A ++ [(ls0, (sp, KSpace))]) ++ (lo1, (t, KParenL)) :: P1 ++ (lc, (u, KParenR)) :: X) (s_heap s)) by (by rewrite <- app_assoc).
  apply wp_bind. eapply wp_ok; [apply find_here; [lia|rewrite (kc_kind _ _ _ _ _ _ _ H1); done]|]. apply wp_bind, wp_get_kind. rewrite (kc_kind _ _ _ _ _ _ _ H1). kred. cbv iota.
  eapply wp_mono; [apply (paren_walk false (length qs) false qs qs' lo _ (lo1, (t, KParenL)) P1 (lc, (u, KParenR)) X f0 s Pm ltac:(lia) EP eq_refl eq_refl Bs H1); lia|].
  intros r s1 (-> & B1 & S' & K1 & M1 & M2). cbv beta. apply wp_ret. cbn [fst snd cursor]. pose proof (fst_length _ _ M2) as Ls.
  assert (K2 : Kc lo (A ++ (ls0, (sp, KSpace)) :: (lo1, (t, KParenL)) :: S' ++ (lc, (u, KParenR)) :: X) (s_heap s1)) by (rewrite <- !app_assoc in K1; exact K1).
  pose proof (cursor_next _ _ _ _ _ K2) as Nx2. cbn [fst] in Nx2. rewrite Nx2.
  assert (K3 : Kc lo ((A ++ [(ls0, (sp, KSpace))]) ++ ((lo1, (t, KParenL)) :: S') ++ (lc, (u, KParenR)) :: X) (s_heap s1)) by (rewrite <- app_assoc; exact K2).
  change ((lo1, (t, KParenL)) :: S' ++ (lc, (u, KParenR)) :: X) with (((lo1, (t, KParenL)) :: S') ++ (lc, (u, KParenR)) :: X).
  change (Some lc) with (Some (fst (lc, (u, KParenR)))).
  eapply w_jumped; [done|exact K3|cbn [length]; lia|]. cbn [length fst].
  apply w_step; [lia|apply at_target|]. cbn [w_x]. rewrite app_assoc in K3. eapply wp_ok; [eapply gf_pass; [exact (kc_kind _ _ _ _ _ _ _ K3)|by left]|].
  cbn [fst snd]. pose proof (cursor_next _ _ _ _ _ K3) as Nx3. cbn [fst] in Nx3. rewrite Nx3.
  assert (Ea : ((A ++ [(ls0, (sp, KSpace))]) ++ (lo1, (t, KParenL)) :: S') ++ [(lc, (u, KParenR))] = A ++ ((ls0, (sp, KSpace)) :: (lo1, (t, KParenL)) :: S' ++ [(lc, (u, KParenR))])).
  { rewrite <- !app_assoc. cbn [app]. done. }
  rewrite Ea. apply HQ; [|done|cbn [app]; rewrite <- !app_assoc; exact K2|done|apply at_fresh|lia].
  rewrite !map_cons, map_app, M1. cbn [map snd app]. done.
Qed.

Lemma results_walk f lo R Q ts ts' : results ts ts' -> (exists k, head (map (fun c : cell => knd c) R) = Some k /\ k ∈ [KNewLine; KSpace]) ->
  forall (A S : list cell) fuel (w : wl (bool * bool)) (s : st), map snd S = ts -> base (s_heap s) -> Kc lo (A ++ S ++ R) (s_heap s) ->
  6 * length S + 8 <= f -> length S <= fuel -> w_x w = (true, true) -> at_node (cursor (s_heap s) A (S ++ R)) w ->
  (forall S' s' w' fuel', map snd S' = ts' -> base (s_heap s') -> Kc lo (A ++ S' ++ R) (s_heap s') -> w_x w' = (true, true) -> at_node (cursor (s_heap s') (A ++ S') R) w' ->
     fuel - length S <= fuel' -> wp (gfw f fuel' (cursor (s_heap s') (A ++ S') R) w') Q s') ->
  wp (gfw f fuel (cursor (s_heap s) A (S ++ R)) w) Q s.
Proof.
  intros Rs (k0 & Hk0 & Hk0'). induction Rs as [|sp ps ps' ts ts' P Rs IH|sp wd ts ts' Hwd Rs IH|sp wd o b c ts ts' Hwd Ne Rs IH|sp t u ps ps' v ts ts' P Rs IH]; intros A S fuel w s Es Bs H Lf Lfu Hx At HQ.
  - apply map_eq_nil in Es as ->. cbn [app length] in *. pose proof (HQ [] s w fuel eq_refl Bs H Hx) as HQ'. rewrite app_nil_r in HQ'. apply HQ'; [done|lia].
  - assert (E : map snd S = ((sp, KSpace) :: ps) ++ ts) by exact Es. clear Es. apply map_eq_app in E as (S1 & S2 & -> & E1 & E2). rewrite app_length in *. rewrite <- app_assoc in *.
    apply (list_walk f lo (S2 ++ R) Q sp ps ps' P A S1 fuel w s E1 Bs H); [lia|lia|done|done|].
    intros S1' s1 w1 fuel1 E1' B1 H1 Hx1 At1 Lf1.
    apply (IH _ S2); [done|done|by rewrite <- app_assoc|lia|lia|done|done|].
    intros S2' s2 w2 fuel2 E2' B2 H2 Hx2 At2 Lf2. rewrite <- app_assoc in *. apply (HQ (S1' ++ S2')); [by rewrite map_app, E1', E2'|done|by rewrite <- app_assoc|done|done|lia].
  - destruct S as [|[ls0 [t' k']] S]; [done|]. cbn [map snd] in Es. injection Es as -> -> Es. apply map_eq_app in Es as (W & S2 & -> & EW & Es).
    destruct W as [|v W]; [by destruct Hwd as [? _]; subst wd|]. subst wd.
    assert (exists d D, S2 ++ R = d :: D /\ knd d ∈ [KNewLine; KSpace; KCurlyL]) as (d & D & Ed & Hd).
    { destruct S2 as [|d S2].
      - destruct R as [|d R]; [done|]. exists d, R. split; [done|]. cbn [map head] in Hk0. injection Hk0 as ->. rewrite !elem_of_cons in *. destruct Hk0' as [|[|Hk0']]; [tauto..|by apply elem_of_nil in Hk0'].
      - exists d, (S2 ++ R). split; [done|]. cbn [map] in Es. inversion Rs; subst; [done|..]; (match goal with H : _ = snd d :: _ |- _ => injection H as H _; rewrite <- H end; apply mem_kind_true; reflexivity). }
    cbn [app length] in *. rewrite !app_length in *. cbn [app length cursor fst] in *. rewrite <- !app_assoc in *. cbn [app] in *.
    apply w_step; [lia|done|]. rewrite Hx. eapply wp_eq; [apply gf_space_stop; [exact (kc_kind _ _ _ _ _ _ _ H)|done]|]. apply wp_bind.
    rewrite Ed in H. eapply wp_mono; [apply (word_run lo A (ls0, (sp, KSpace)) v W d D f s Bs H eq_refl Hwd Hd); lia|].
    intros r s1 (-> & B1 & K1). cbv beta. apply wp_ret. cbn [fst snd].
    pose proof (cursor_next _ _ _ _ _ K1) as Nx. cbn [fst] in Nx. rewrite Nx. set (v' := (fst v, merged (map snd (v :: W)))) in *.
    assert (K2 : Kc lo ((A ++ [(ls0, (sp, KSpace))]) ++ [v'] ++ d :: D) (s_heap s1)) by (rewrite <- app_assoc; exact K1).
    change (v' :: d :: D) with ([v'] ++ d :: D). eapply w_jumped; [done|exact K2|cbn [length]; lia|]. cbn [length].
    rewrite app_assoc in K2. rewrite <- Ed in K2.
    assert (Ec : Some (fst d) = cursor (s_heap s1) ((A ++ [(ls0, (sp, KSpace))]) ++ [v']) (S2 ++ R)) by (by rewrite Ed). rewrite Ec.
    apply (IH _ S2); [done|done|done|lia|lia|done|apply at_target|].
    intros S2' s2 w' fuel' E2 B2 H2 Hx2 At2 Lf2.
    assert (Ea : ((A ++ [(ls0, (sp, KSpace))]) ++ [v']) = A ++ [(ls0, (sp, KSpace)); v']) by (by rewrite <- app_assoc).
    rewrite Ea in *. rewrite <- app_assoc in *.
    apply (HQ ([(ls0, (sp, KSpace)); v'] ++ S2')); [|done|rewrite <- app_assoc; done|done|done|lia].
    rewrite map_app, E2. done.
  - destruct S as [|[ls0 [t' k']] S]; [done|]. cbn [map snd] in Es. injection Es as -> -> Es. apply map_eq_app in Es as (W & S2 & -> & EW & Es).
    destruct W as [|v W]; [by destruct Hwd as [? _]; subst wd|]. subst wd.
    destruct S2 as [|d S2]; [done|]. cbn [map snd] in Es. assert (Ed : snd d = (o, KCurlyL)) by congruence. assert (Es2 : map snd S2 = b ++ (c, KCurlyR) :: ts) by congruence. clear Es.
    apply map_eq_app in Es2 as (Bd & S3 & -> & <- & Es). destruct S3 as [|cl S3]; [done|]. cbn [map snd] in Es. assert (Ec : snd cl = (c, KCurlyR)) by congruence. assert (Es3 : map snd S3 = ts) by congruence. clear Es.
    assert (Kd : knd d = KCurlyL) by (by rewrite Ed). assert (Kl : knd cl = KCurlyR) by (by rewrite Ec).
    cbn [app length] in *. rewrite !app_length in *. cbn [app length cursor fst] in *. rewrite !app_length in *. cbn [length] in *. repeat (rewrite <- ?app_assoc in H; cbn [app] in H).
    apply w_step; [lia|done|]. rewrite Hx. eapply wp_eq; [apply gf_space_stop; [exact (kc_kind _ _ _ _ _ _ _ H)|done]|]. apply wp_bind.
    eapply wp_mono; [apply (word_run lo A (ls0, (sp, KSpace)) v W d (Bd ++ cl :: S3 ++ R) f s Bs H eq_refl Hwd); [rewrite Kd; apply mem_kind_true; reflexivity|lia]|].
    intros r s1 (-> & B1 & K1). cbv beta. apply wp_ret. cbn [fst snd].
    pose proof (cursor_next _ _ _ _ _ K1) as Nx. cbn [fst] in Nx. rewrite Nx. set (v' := (fst v, merged (map snd (v :: W)))) in *.
    assert (K2 : Kc lo ((A ++ [(ls0, (sp, KSpace))]) ++ [v'] ++ d :: Bd ++ cl :: S3 ++ R) (s_heap s1)) by (rewrite <- app_assoc; exact K1).
    change (v' :: d :: Bd ++ cl :: S3 ++ R) with ([v'] ++ d :: Bd ++ cl :: S3 ++ R). eapply w_jumped; [done|exact K2|cbn [length]; lia|]. cbn [length].
    rewrite app_assoc in K2.
    eapply gf_curly; [exact B1|exact K2|done|done|done|lia|lia|reflexivity|apply at_target|].
    assert (Ea : ((A ++ [(ls0, (sp, KSpace))]) ++ [v']) ++ d :: Bd ++ [cl] = A ++ ((ls0, (sp, KSpace)) :: v' :: d :: Bd ++ [cl])) by (by rewrite <- !app_assoc).
    rewrite Ea. apply (IH _ S3); [done|done| |lia|lia|done|apply at_fresh|].
    { clear -K1. repeat (rewrite <- ?app_assoc; cbn [app]). exact K1. }
    intros S3' s2 w' fuel' E2 B2 H2 Hx2 At2 Lf2.
    rewrite <- (app_assoc A) in *. apply (HQ (((ls0, (sp, KSpace)) :: v' :: d :: Bd ++ [cl]) ++ S3')); [|done| |done|done|lia].
    + rewrite map_app, E2. cbn [map snd]. rewrite map_app. cbn [map snd app]. rewrite Ed, Ec, <- app_assoc. done.
    + rewrite <- (app_assoc (_ :: _)). exact H2.
  - destruct S as [|[ls0 [t' k']] S]; [done|]. cbn [map snd] in Es. injection Es as -> -> Es.
    destruct S as [|[l1 [t' k']] S]; [done|]. cbn [map snd] in Es. injection Es as -> -> Es.
    destruct S as [|[l2 [t' k']] S]; [done|]. cbn [map snd] in Es. injection Es as -> -> Es.
    apply map_eq_app in Es as (P1 & S2 & -> & EP & Es). destruct S2 as [|[l3 [t' k']] S2]; [done|]. cbn [map snd] in Es. injection Es as -> -> Es.
    assert (exists d D, S2 ++ R = d :: D) as (d & D & Ed). { destruct S2 as [|d S2]; [destruct R as [|d R]; [done|eauto]|cbn [app]; eauto]. }
    cbn [app length] in *. rewrite !app_length in *. cbn [app length cursor fst] in *. rewrite <- !app_assoc in *. cbn [app] in *.
    apply w_step; [lia|done|]. rewrite Hx. eapply wp_eq; [apply gf_space_stop; [exact (kc_kind _ _ _ _ _ _ _ H)|done]|]. apply wp_bind.
    destruct f as [|f0]; [lia|]. rewrite single_return_eq. apply wp_bind, wp_get_kind. rewrite (kc_kind _ _ _ _ _ _ _ H). kred. cbv iota. apply wp_bind, wp_get_next.
    pose proof (cursor_next _ _ _ _ _ H) as Nx. cbn [fst cursor] in Nx. rewrite Nx.
    assert (H1 : Kc lo ((A ++ [(ls0, (sp, KSpace))]) ++ (l1, (t, KFunc)) :: (l2, (u, KParenL)) :: P1 ++ (l3, (v, KParenR)) :: S2 ++ R) (s_heap s)) by (by rewrite <- app_assoc).
    apply wp_bind. eapply wp_ok; [apply find_here; [lia|rewrite (kc_kind _ _ _ _ _ _ _ H1); done]|]. apply wp_bind, wp_get_kind. rewrite (kc_kind _ _ _ _ _ _ _ H1). kred. cbv iota.
    change (parameter_func f0 (Some l1) []) with (func_run (Datatypes.S f0) ff_p (Some (fst (l1, (t, KFunc)))) (hs false)).
    eapply wp_mono; [apply (param_func false (length ps) lo _ (l1, (t, KFunc)) (l2, (u, KParenL)) P1 (l3, (v, KParenR)) (S2 ++ R) (Datatypes.S f0) ps ps' s (paren_walk false _) P ltac:(lia) EP eq_refl eq_refl eq_refl Bs H1); [by rewrite Ed|lia]|].
    intros r s1 [(_ & B1 & S' & K1 & M1 & M2) ->]. cbv beta. apply wp_ret. pose proof (fst_length _ _ M2) as Ls. rewrite Ed. cbn [fst snd cursor].
    assert (K2 : Kc lo (A ++ (ls0, (sp, KSpace)) :: ((l1, (t, KFunc)) :: (l2, (u, KParenL)) :: S' ++ [(l3, (v, KParenR))]) ++ d :: D) (s_heap s1)).
    { rewrite <- Ed. repeat (rewrite <- ?app_assoc in K1; cbn [app] in K1). cbn [app]. rewrite <- app_assoc. exact K1. }
    pose proof (cursor_next _ _ _ _ _ K2) as Nx2. cbn [fst] in Nx2. rewrite Nx2.
    assert (K3 : Kc lo ((A ++ [(ls0, (sp, KSpace))]) ++ ((l1, (t, KFunc)) :: (l2, (u, KParenL)) :: S' ++ [(l3, (v, KParenR))]) ++ d :: D) (s_heap s1)) by (by rewrite <- app_assoc).
    eapply w_jumped; [done|exact K3|cbn [length]; rewrite app_length; cbn [length]; lia|]. cbn [length]. rewrite app_length. cbn [length].
    rewrite app_assoc in K3. rewrite <- Ed in K3.
    assert (Ec : Some (fst d) = cursor (s_heap s1) ((A ++ [(ls0, (sp, KSpace))]) ++ (l1, (t, KFunc)) :: (l2, (u, KParenL)) :: S' ++ [(l3, (v, KParenR))]) (S2 ++ R)) by (by rewrite Ed). rewrite Ec.
    apply (IH _ S2); [done|done|done|lia|lia|done|apply at_target|].
    intros S2' s2 w' fuel' E2 B2 H2 Hx2 At2 Lf2.
    assert (Ea : (A ++ [(ls0, (sp, KSpace))]) ++ (l1, (t, KFunc)) :: (l2, (u, KParenL)) :: S' ++ [(l3, (v, KParenR))] = A ++ ((ls0, (sp, KSpace)) :: (l1, (t, KFunc)) :: (l2, (u, KParenL)) :: S' ++ [(l3, (v, KParenR))])) by (by rewrite <- app_assoc).
    rewrite Ea in *. rewrite <- (app_assoc A) in *.
    apply (HQ (((ls0, (sp, KSpace)) :: (l1, (t, KFunc)) :: (l2, (u, KParenL)) :: S' ++ [(l3, (v, KParenR))]) ++ S2')); [|done|rewrite <- (app_assoc (_ :: _)); done|done|done|lia].
    rewrite map_app, E2, !map_cons, map_app, M1. cbn [map snd app]. rewrite <- !app_assoc. done.
Qed.

(** ** Signatures *)
Lemma gf_paren f lo R Q ps ps' : parens KParamName KParamType ps ps' ->
  forall (A S : list cell) fuel (w : wl (bool * bool)) n prm (s : st), map snd S = ps -> base (s_heap s) -> Kc lo (A ++ S ++ R) (s_heap s) ->
  6 * length S + 8 <= f -> length S <= fuel -> w_x w = (n, prm) -> at_node (cursor (s_heap s) A (S ++ R)) w ->
  (forall S' s' w', map snd S' = ps' -> base (s_heap s') -> Kc lo (A ++ S' ++ R) (s_heap s') -> w_x w' = (n, true) -> at_node (cursor (s_heap s') (A ++ S') R) w' ->
     wp (gfw f (fuel - length S) (cursor (s_heap s') (A ++ S') R) w') Q s') ->
  wp (gfw f fuel (cursor (s_heap s) A (S ++ R)) w) Q s.
Proof.
  intros [t qs qs' u Pm] A S fuel w n prm s Es Bs H Lf Lfu Hx At HQ.
  destruct S as [|[lo1 [t' k']] P0]; [done|]. cbn [map snd] in Es. injection Es as -> -> Es. apply map_eq_app in Es as (P1 & P2 & -> & EP & E2).
  destruct P2 as [|[lc [u' k']] [|]]; [done| |done]. cbn [map snd] in E2. injection E2 as -> ->.
  cbn [app length] in *. rewrite !app_length in *. cbn [app length cursor fst] in *. rewrite <- !app_assoc in *. cbn [app] in *.
  apply w_step; [lia|done|]. rewrite Hx. unfold gf_sw at 1. apply wp_bind, wp_get_kind. rewrite (kc_kind _ _ _ _ _ _ _ H). kred. cbv iota. apply wp_bind.
  eapply wp_mono; [apply (paren_walk false (length qs) false qs qs' lo _ (lo1, (t, KParenL)) P1 (lc, (u, KParenR)) R f s Pm ltac:(lia) EP eq_refl eq_refl Bs H); lia|].
  intros r s1 (-> & B1 & S' & K1 & M1 & M2). cbv beta. apply wp_ret. cbn [fst snd cursor]. pose proof (fst_length _ _ M2) as Ls.
  assert (K2 : Kc lo (A ++ (lo1, (t, KParenL)) :: S' ++ (lc, (u, KParenR)) :: R) (s_heap s1)) by (rewrite <- !app_assoc in K1; exact K1).
  pose proof (cursor_next _ _ _ _ _ K2) as Nx2. cbn [fst] in Nx2. rewrite Nx2.
  change (Some lc) with (Some (fst (lc, (u, KParenR)))).
  eapply w_jumped; [done|exact K1|lia|]. cbn [fst].
  apply w_step; [lia|apply at_target|]. cbn [w_x]. rewrite app_assoc in K1. eapply wp_ok; [eapply gf_pass; [exact (kc_kind _ _ _ _ _ _ _ K1)|by left]|].
  cbn [fst snd]. pose proof (cursor_next _ _ _ _ _ K1) as Nx3. cbn [fst] in Nx3. rewrite Nx3.
  assert (Ea : ((A ++ [(lo1, (t, KParenL))]) ++ S') ++ [(lc, (u, KParenR))] = A ++ ((lo1, (t, KParenL)) :: S' ++ [(lc, (u, KParenR))])).
  { rewrite <- !app_assoc. cbn [app]. done. }
  rewrite Ea. replace (pred (pred fuel - length S')) with (fuel - Datatypes.S (length P1 + 1)) by lia.
  apply (HQ ((lo1, (t, KParenL)) :: S' ++ [(lc, (u, KParenR))])); [|done| |done|apply at_fresh].
  - rewrite map_cons, map_app, M1. done.
  - cbn [app]. rewrite <- app_assoc. exact K2.
Qed.
Lemma gf_square f lo R Q t gs u : squares (map snd gs) ->
  forall (A S : list cell) fuel (w : wl (bool * bool)) n prm (s : st), map snd S = (t, KSquareL) :: gs ++ [(u, KSquareR)] -> base (s_heap s) -> Kc lo (A ++ S ++ R) (s_heap s) ->
  length S + 2 <= f -> length S <= fuel -> w_x w = (n, prm) -> at_node (cursor (s_heap s) A (S ++ R)) w ->
  (forall w', w_x w' = (n, true) -> at_node (cursor (s_heap s) (A ++ S) R) w' -> wp (gfw f (fuel - length S) (cursor (s_heap s) (A ++ S) R) w') Q s) ->
  wp (gfw f fuel (cursor (s_heap s) A (S ++ R)) w) Q s.
Proof.
  intros Sq A S fuel w n prm s Es Bs H Lf Lfu Hx At HQ.
  destruct S as [|[lo1 [t' k']] P0]; [done|]. cbn [map snd] in Es. injection Es as -> -> Es. apply map_eq_app in Es as (P1 & P2 & -> & EP & E2).
  destruct P2 as [|[lc [u' k']] [|]]; [done| |done]. cbn [map snd] in E2. injection E2 as -> ->.
  assert (H1 := H). cbn [app length] in *. rewrite !app_length in *. cbn [app length cursor fst] in *. rewrite <- !app_assoc in H. cbn [app] in H.
  apply w_step; [lia|done|]. rewrite Hx. unfold gf_sw at 1. apply wp_bind, wp_get_kind. rewrite (kc_kind _ _ _ _ _ _ _ H). kred. cbv iota. apply wp_bind.
  assert (H2 : Kc lo ((A ++ [(lo1, (t, KSquareL))]) ++ P1 ++ (lc, (u, KSquareR)) :: R) (s_heap s)) by (rewrite <- app_assoc; exact H).
  assert (H3 : Kc lo ((A ++ (lo1, (t, KSquareL)) :: P1) ++ (lc, (u, KSquareR)) :: R) (s_heap s)) by (rewrite <- app_assoc; exact H).
  pose proof (kc_stretch lo A ((lo1, (t, KSquareL)) :: P1 ++ [(lc, (u, KSquareR))]) R _ H1) as Sg. rewrite map_cons, map_app in Sg.
  eapply wp_mono; [eapply square_pure; [exact Sg| |exact (kc_kind _ _ _ _ _ _ _ H)|exact (kc_kind _ _ _ _ _ _ _ H3)|]|].
  - rewrite (kc_kinds _ _ _ _ _ H2), EP. exact Sq.
  - rewrite map_length. lia.
  - intros r s' [-> ->]. cbv beta. apply wp_ret. cbn [fst snd]. pose proof (cursor_next _ _ _ _ _ H) as Nx. cbn [fst] in Nx. rewrite Nx.
    change (Some lc) with (Some (fst (lc, (u, KSquareR)))). eapply w_jumped; [done|exact H2|lia|]. cbn [fst]. apply w_step; [lia|apply at_target|]. cbn [w_x].
    eapply wp_ok; [eapply gf_pass; [exact (kc_kind _ _ _ _ _ _ _ H3)|by right; left]|].
    cbn [fst snd]. pose proof (cursor_next _ _ _ _ _ H3) as Nx3. cbn [fst] in Nx3. rewrite Nx3.
    replace (pred (pred fuel - length P1)) with (fuel - Datatypes.S (length P1 + 1)) by lia. rewrite <- app_assoc in *. cbn [app] in *. apply HQ; [done|apply at_fresh].
Qed.
Lemma gf_name f lo l n (A R : list cell) fuel (w : wl (bool * bool)) prm (s : st) Q : base (s_heap s) -> Kc lo (A ++ (l, (n, KRaw)) :: R) (s_heap s) ->
  0 < fuel -> w_x w = (false, prm) -> at_node (Some l) w ->
  (forall s', base (s_heap s') -> Kc lo (A ++ (l, (n, KFuncName)) :: R) (s_heap s') ->
     wp (gfw f (pred fuel) (cursor (s_heap s') (A ++ [(l, (n, KFuncName))]) R) (mkWl false None (true, prm))) Q s') ->
  wp (gfw f fuel (Some l) w) Q s.
Proof.
  intros Bs H Lfu Hx At HQ. apply w_step; [lia|done|]. rewrite Hx. unfold gf_sw at 1. apply wp_bind, wp_get_kind. rewrite (kc_kind _ _ _ _ _ _ _ H). kred. cbv iota.
  destruct (kc_set lo A l n KRaw R _ KFuncName Bs H ltac:(apply mem_kind_true; reflexivity)) as [B2 H2]. apply wp_bind, wp_set_kind, wp_ret. cbn [fst snd s_heap].
  pose proof (cursor_next _ _ _ _ _ H2) as Nx. cbn [fst] in Nx. rewrite Nx. by apply (HQ (mkSt (set_kind (s_heap s) (Some l) KFuncName) (s_buf s))).
Qed.
(** A closing parenthesis that stands alone is passed, and so is a comma. *)
Lemma stray_kind k : k ∈ [KParenR; KComma] -> k = KParenR \/ k = KSquareR \/ k = KComma.
Proof. rewrite !elem_of_cons, elem_of_nil. intros [-> |[-> |[]]]; auto. Qed.
Lemma stray_walk f lo k (A : list cell) l u (X : list cell) fuel (w : wl (bool * bool)) Q (s : st) :
  k ∈ [KParenR; KComma] -> Kc lo (A ++ (l, (u, k)) :: X) (s_heap s) -> 1 <= fuel -> w_x w = (true, true) -> at_node (Some l) w ->
  (forall w', w_x w' = (true, true) -> at_node (cursor (s_heap s) (A ++ [(l, (u, k))]) X) w' -> wp (gfw f (pred fuel) (cursor (s_heap s) (A ++ [(l, (u, k))]) X) w') Q s) ->
  wp (gfw f fuel (Some l) w) Q s.
Proof.
  intros Hk H Lfu Hx At HQ. apply w_step; [lia|done|]. rewrite Hx. eapply wp_ok; [eapply gf_pass; [exact (kc_kind _ _ _ _ _ _ _ H)|by apply stray_kind]|].
  cbn [fst snd]. pose proof (cursor_next _ _ _ _ _ H) as Nx. cbn [fst] in Nx. rewrite Nx. apply HQ; [done|apply at_fresh].
Qed.
Lemma outcome_walk f lo R Q ts ts' : outcome ts ts' -> (exists k, head (map (fun c : cell => knd c) R) = Some k /\ k ∈ [KNewLine; KSpace]) ->
  forall (A S : list cell) fuel (w : wl (bool * bool)) (s : st), map snd S = ts -> base (s_heap s) -> Kc lo (A ++ S ++ R) (s_heap s) ->
  6 * length S + 8 <= f -> length S <= fuel -> w_x w = (true, true) -> at_node (cursor (s_heap s) A (S ++ R)) w ->
  (forall S' s' w' fuel', map snd S' = ts' -> base (s_heap s') -> Kc lo (A ++ S' ++ R) (s_heap s') -> w_x w' = (true, true) -> at_node (cursor (s_heap s') (A ++ S') R) w' ->
     fuel - length S <= fuel' -> wp (gfw f fuel' (cursor (s_heap s') (A ++ S') R) w') Q s') ->
  wp (gfw f fuel (cursor (s_heap s) A (S ++ R)) w) Q s.
Proof.
  intros [t t' Rs|ku u t t' Hu Rs|sp ps ps' ku u t t' Hu P Rs] HR A S fuel w s Es Bs H Lf Lfu Hx At HQ.
  - by apply (results_walk f lo R Q t t' Rs HR A S fuel w s).
  - destruct S as [|[l x] S]; [done|]. cbn [map snd] in Es. assert (Ex : x = (u, ku)) by congruence. assert (Es2 : map snd S = t) by congruence. subst x. cbn [app length cursor fst] in *.
    apply (stray_walk f lo ku A l u (S ++ R) fuel w Q s Hu H); [lia|done|done|]. intros w1 Hx1 At1.
    apply (results_walk f lo R Q t t' Rs HR _ S); [done|done|by rewrite <- app_assoc|lia|lia|done|done|].
    intros S2' s2 w2 fuel2 E2' B2 H2 Hx2 At2 Lf2. rewrite <- app_assoc in *. apply (HQ ((l, (u, ku)) :: S2')); [cbn [map snd]; by rewrite E2'|done|done|done|done|lia].
  - assert (E : map snd S = ((sp, KSpace) :: ps) ++ (u, ku) :: t) by exact Es. clear Es. apply map_eq_app in E as (S1 & S2 & -> & E1 & E2).
    destruct S2 as [|[l x] S2]; [done|]. cbn [map snd] in E2. assert (Ex : x = (u, ku)) by congruence. assert (Es2 : map snd S2 = t) by congruence. subst x. clear E2.
    rewrite app_length in *. cbn [length] in *. rewrite <- app_assoc in *.
    apply (list_walk f lo (((l, (u, ku)) :: S2) ++ R) Q sp ps ps' P A S1 fuel w s E1 Bs H); [lia|lia|done|done|].
    intros S1' s1 w1 fuel1 E1' B1 H1 Hx1 At1 Lf1. cbn [app cursor fst] in *. rewrite app_assoc in H1.
    apply (stray_walk f lo ku (A ++ S1') l u (S2 ++ R) fuel1 w1 Q s1 Hu H1); [lia|done|done|]. intros w3 Hx3 At3.
    apply (results_walk f lo R Q t t' Rs HR _ S2); [done|done|by rewrite <- app_assoc|lia|lia|done|done|].
    intros S2' s2 w2 fuel2 E2' B2 H2 Hx2 At2 Lf2. repeat (rewrite <- ?app_assoc in H2; cbn [app] in H2).
    assert (Ea : ((A ++ S1') ++ [(l, (u, ku))]) ++ S2' = A ++ (S1' ++ (l, (u, ku)) :: S2')) by (repeat (rewrite <- ?app_assoc; cbn [app]); done).
    rewrite Ea in *. apply (HQ (S1' ++ (l, (u, ku)) :: S2')); [rewrite map_app, E1'; cbn [map snd]; by rewrite E2'|done|repeat (rewrite <- ?app_assoc; cbn [app]); exact H2|done|done|lia].
Qed.
Definition ends (R : list cell) : Prop := exists k, head (map (fun c : cell => knd c) R) = Some k /\ k ∈ [KNewLine; KSpace].
Lemma gf_params f lo R Q ps ps' ts ts' : parens KParamName KParamType ps ps' -> outcome ts ts' -> ends R ->
  forall (A S : list cell) fuel (w : wl (bool * bool)) prm (s : st), map snd S = ps ++ ts -> base (s_heap s) -> Kc lo (A ++ S ++ R) (s_heap s) ->
  6 * length S + 8 <= f -> length S <= fuel -> w_x w = (true, prm) -> at_node (cursor (s_heap s) A (S ++ R)) w ->
  (forall S' s' w' fuel', map snd S' = ps' ++ ts' -> base (s_heap s') -> Kc lo (A ++ S' ++ R) (s_heap s') -> w_x w' = (true, true) -> at_node (cursor (s_heap s') (A ++ S') R) w' ->
     fuel - length S <= fuel' -> wp (gfw f fuel' (cursor (s_heap s') (A ++ S') R) w') Q s') ->
  wp (gfw f fuel (cursor (s_heap s) A (S ++ R)) w) Q s.
Proof.
  intros P Rs HR A S fuel w prm s Es Bs H Lf Lfu Hx At HQ. apply map_eq_app in Es as (S1 & S2 & -> & E1 & E2). rewrite app_length in *. rewrite <- app_assoc in *.
  eapply (gf_paren f lo (S2 ++ R) Q ps ps' P); [done|done|done|lia|lia|exact Hx|done|].
  intros S1' s1 w1 E1' B1 H1 Hx1 At1.
  apply (outcome_walk f lo R Q ts ts' Rs HR); [done|done|by rewrite <- app_assoc|lia|lia|done|done|].
  intros S2' s2 w2 fuel2 E2' B2 H2 Hx2 At2 Lf2. rewrite <- app_assoc in *. apply HQ; [by rewrite map_app, E1', E2'|done|by rewrite <- app_assoc|done|done|lia].
Qed.
Lemma sig_walk f lo R Q ts ts' : signature ts ts' -> ends R ->
  forall (A S : list cell) fuel (w : wl (bool * bool)) prm (s : st), map snd S = ts -> base (s_heap s) -> Kc lo (A ++ S ++ R) (s_heap s) ->
  6 * length S + 8 <= f -> length S <= fuel -> w_x w = (false, prm) -> at_node (cursor (s_heap s) A (S ++ R)) w ->
  (forall S' s' w' fuel', map snd S' = ts' -> base (s_heap s') -> Kc lo (A ++ S' ++ R) (s_heap s') -> w_x w' = (true, true) -> at_node (cursor (s_heap s') (A ++ S') R) w' ->
     fuel - length S <= fuel' -> wp (gfw f fuel' (cursor (s_heap s') (A ++ S') R) w') Q s') ->
  wp (gfw f fuel (cursor (s_heap s) A (S ++ R)) w) Q s.
Proof.
  intros Sg HR A S fuel w prm s Es Bs H Lf Lfu Hx At HQ.
  destruct Sg as [n ps ps' ts ts' P Rs|n t gs u ps ps' ts ts' Sq P Rs]; (destruct S as [|[l [n' k']] S]; [done|]); cbn [map snd] in Es; injection Es as -> -> Es;
    cbn [app length] in *; (apply (gf_name f lo l n A (S ++ R) fuel w prm s Q Bs H); [lia|done|done|]); intros s1 B1 H1.
  - eapply (gf_params f lo R Q ps ps' ts ts' P Rs HR); [done|done|by rewrite <- app_assoc|lia|lia|done|apply at_fresh|].
    intros S' s2 w2 fuel2 E2 B2 H2 Hx2 At2 Lf2. rewrite <- app_assoc in *. apply (HQ ((l, (n, KFuncName)) :: S')); [cbn [map]; by rewrite E2|done|done|done|done|lia].
  - assert (E : map snd S = ((t, KSquareL) :: gs ++ [(u, KSquareR)]) ++ ps ++ ts) by (rewrite Es; cbn [app]; by rewrite <- app_assoc).
    apply map_eq_app in E as (S1 & S2 & -> & E1 & E2). rewrite app_length in *. rewrite <- app_assoc in *.
    eapply (gf_square f lo (S2 ++ R) Q t gs u Sq); [exact E1|done|by rewrite <- app_assoc|lia|lia|done|apply at_fresh|].
    intros w1 Hx1 At1.
    eapply (gf_params f lo R Q ps ps' ts ts' P Rs HR); [exact E2|done|by rewrite <- !app_assoc in *|lia|lia|exact Hx1|done|].
    intros S' s2 w2 fuel2 E2' B2 H2 Hx2 At2 Lf2. rewrite <- !app_assoc in *. apply (HQ ((l, (n, KFuncName)) :: S1 ++ S')); [|done|cbn [app]; by rewrite <- app_assoc|done|done|lia].
    cbn [map]. rewrite map_app, E1, E2'. cbn [app snd]. by rewrite <- app_assoc.
Qed.

(** ** After the signature *)
Lemma gf_newline f lo (A B : list cell) (c : cell) fuel w (s : st) (Q : wl (bool * bool) * ptr -> st -> Prop) : Kc lo (A ++ c :: B) (s_heap s) -> knd c = KNewLine -> 0 < fuel -> w_x w = (true, true) -> at_node (Some (fst c)) w ->
  Q (mkWl false None (true, true), Some (fst c)) s -> wp (gfw f fuel (Some (fst c)) w) Q s.
Proof.
  intros H Hk Lf Hx At HQ. apply w_step; [done|done|]. rewrite Hx. apply (wp_ok _ (Stop, (true, true)) _ _ s); [|done].
  unfold gf_sw, bind, get_kind, ret. cbn [res_bind]. rewrite (kc_at _ _ _ _ _ H), Hk. reflexivity.
Qed.
Lemma gf_comment f lo (A B : list cell) (sp cm nl : cell) fuel w (s : st) (Q : wl (bool * bool) * ptr -> st -> Prop) : base (s_heap s) -> Kc lo (A ++ sp :: cm :: nl :: B) (s_heap s) -> knd sp = KSpace -> knd cm = KComment -> knd nl = KNewLine ->
  4 <= f -> 3 <= fuel -> w_x w = (true, true) -> at_node (Some (fst sp)) w ->
  Q (mkWl false None (true, true), Some (fst nl)) s -> wp (gfw f fuel (Some (fst sp)) w) Q s.
Proof.
  intros Bs H Ks Km Kn Lf Lfu Hx At HQ. assert (H1 : Kc lo ((A ++ [sp]) ++ cm :: nl :: B) (s_heap s)) by (by rewrite <- app_assoc).
  assert (H2 : Kc lo ((A ++ [sp; cm]) ++ nl :: B) (s_heap s)) by (by rewrite <- app_assoc).
  apply w_step; [lia|done|]. rewrite Hx. eapply wp_eq; [apply gf_space_stop; [by rewrite (kc_at _ _ _ _ _ H)|done]|]. apply wp_bind.
  destruct f as [|f0]; [lia|]. rewrite single_return_eq. apply wp_bind, wp_get_kind. rewrite (kc_at _ _ _ _ _ H), Ks. kred. cbv iota. apply wp_bind, wp_get_next.
  pose proof (kc_link _ _ _ H A sp cm (nl :: B) eq_refl) as Nx. pose proof (kc_link _ _ _ H1 (A ++ [sp]) cm nl B eq_refl) as Nx2. rewrite Nx.
  apply wp_bind. unfold find_next. apply wp_bind. apply step_iterM; [lia|]. apply wp_bind. apply (wp_ok _ tt _ _ s); [done|]. apply wp_bind, wp_get_kind, wp_ret. rewrite (kc_at _ _ _ _ _ H1), Km.
  cbn [fst snd]. change (find_decide [KComment] opt_rev KComment (count_step KComment (0, 0, 0)%Z)) with true. cbv iota. rewrite Nx2.
  apply step_iterM; [lia|]. apply wp_bind. apply (wp_ok _ tt _ _ s); [done|]. apply wp_bind, wp_get_kind, wp_ret. rewrite (kc_at _ _ _ _ _ H2), Kn.
  cbn [fst snd]. change (find_decide [KComment] opt_rev KNewLine (count_step KNewLine (count_step KComment (0, 0, 0)%Z))) with false. cbv iota. apply wp_ret. cbn [snd].
  apply wp_bind, wp_get_kind. rewrite (kc_at _ _ _ _ _ H2), Kn. kred. cbv iota. apply wp_bind. fold (sr_step []).
  apply step_iterM; [lia|]. unfold sr_step at 1. apply wp_bind. apply (wp_ok _ tt _ _ s); [done|]. apply wp_bind, wp_get_kind. rewrite (kc_at _ _ _ _ _ H1), Km. kred. cbv iota. apply wp_ret. cbn [fst snd]. rewrite Nx2.
  apply step_iterM; [lia|]. unfold sr_step at 1. apply wp_bind. apply (wp_ok _ tt _ _ s); [done|]. apply wp_bind, wp_get_kind. rewrite (kc_at _ _ _ _ _ H2), Kn. kred. cbv iota. apply wp_ret. cbn [fst snd].
  apply wp_bind. apply (wp_ok _ tt _ _ s); [done|]. apply wp_ret, wp_ret. cbn [fst snd]. rewrite Nx.
  pose proof (w_jumped lo false (gf_sw (Datatypes.S f0) (cset_new [KNewLine]) []) (A ++ [sp]) [cm] nl B (true, true) (pred fuel) Q s Bs H1) as WJ. cbn [app cursor length] in WJ. apply WJ; [lia|].
  apply (gf_newline (Datatypes.S f0) lo (A ++ [sp; cm]) B nl); [done|done|lia|done|apply at_target|done].
Qed.
Lemma line_end_last (E : list cell) (c : cell) : line_end (map snd E) -> last E = Some c -> knd c = KNewLine.
Proof.
  intros H L. apply last_Some in L as [F ->]. rewrite map_app in H. cbn [map] in H. inversion H as [u Eq|sx cx u Eq].
  - apply (app_inj_tail []) in Eq as [_ <-]. done.
  - apply (app_inj_tail [_; _]) in Eq as [_ <-]. done.
Qed.
Lemma line_end_pos (E : list cell) : line_end (map snd E) -> 0 < length E.
Proof. intros H. destruct E; [inversion H|cbn [length]; lia]. Qed.
Lemma gf_line f lo (A E B : list cell) fuel w (s : st) (Q : wl (bool * bool) * ptr -> st -> Prop) : base (s_heap s) -> Kc lo (A ++ E ++ B) (s_heap s) -> line_end (map snd E) ->
  4 <= f -> 3 <= fuel -> w_x w = (true, true) -> at_node (cursor (s_heap s) A (E ++ B)) w ->
  (forall c, last E = Some c -> Q (mkWl false None (true, true), Some (fst c)) s) -> wp (gfw f fuel (cursor (s_heap s) A (E ++ B)) w) Q s.
Proof.
  intros Bs H He Lf Lfu Hx At HQ. inversion He as [u Eq|sx cx u Eq].
  - destruct E as [|c [|]]; [done| |done]. cbn [map] in Eq. injection Eq as Eq. cbn [app cursor] in *. eapply gf_newline; [exact H|by rewrite <- Eq|lia|done|done|]. by apply HQ.
  - destruct E as [|c0 [|c1 [|c2 [|]]]]; [done..| |done]. cbn [map] in Eq. injection Eq as E0 E1 E2. cbn [app cursor] in *.
    eapply gf_comment; [exact Bs|exact H|by rewrite <- E0|by rewrite <- E1|by rewrite <- E2|lia|lia|done|done|]. by apply HQ.
Qed.
Lemma gf_rest lo C f fuel rk p w (s : st) : base (s_heap s) -> Kc lo C (s_heap s) -> from lo p ->
  6 * N lo + 5 <= f -> N lo <= fuel ->
  wp (iterM fuel (walk_body false [] (gf_sw f rk [])) p w)
    (fun r s' => base (s_heap s') /\ Kc lo C (s_heap s') /\ forall l, snd r = Some l -> contain rk (kind_of (s_heap s') (Some l)) = true) s.
Proof.
  intros B HK F Lf Lfu. destruct (blockc lo C f) as (IPR & _ & _ & _ & _ & _ & ISR).
  eapply wp_mono.
  - apply (wp_walk_from h0 ls ND lo (Kc lo C) any (fun _ => True) false lo p [] (gf_sw f rk []) w fuel s
      (fun l s' => contain rk (kind_of (s_heap s') (Some l)) = true)); try done.
    intros l j x s' El Lj I' _ _. eapply wp_mono.
    + eapply (gf_sw_ok h0 ls Hval true lo (Kc lo C) any); try done; [intros; by apply kc_k|lia].
    + intros ax s'' [? ?]. done.
  - intros r s' ((B' & K' & _) & _ & H). done.
Qed.
Lemma nest_pure i p a b fuel (s : st) : base (s_heap s) -> from i p -> N i <= fuel -> wp (skip_nest fuel p a b []) (fun r s' => s_heap s' = s_heap s /\ from i r) s.
Proof.
  intros B F Lf. eapply wp_mono.
  - apply (skip_nest_ok h0 ls 0 (fun h => h = s_heap s) any i p a b [] fuel s); [done|done|lia|done|done].
  - intros r s' ((_ & E & _) & F'). done.
Qed.
Definition done_at (r : ptr) (s : st) : Prop := forall l, r = Some l -> kind_of (s_heap s) (Some l) = KNewLine.
Lemma gf_brace f lo (A B : list cell) (sp br : cell) fuel w (s : st) Q : base (s_heap s) -> Kc lo (A ++ sp :: br :: B) (s_heap s) -> knd sp = KSpace -> knd br = KCurlyL ->
  3 <= f -> 2 <= fuel -> w_x w = (true, true) -> at_node (Some (fst sp)) w ->
  wp (curly_run f (Some (fst br)) []) (fun r s' => wp (gfw f (pred (pred fuel)) (next_of (s_heap s') (Some (fst br))) (mkWl (ptr_eqb r None) r (true, true))) Q s') s ->
  wp (gfw f fuel (Some (fst sp)) w) Q s.
Proof.
  intros Bs H Ks Kb Lf Lfu Hx At HQ. assert (H1 : Kc lo ((A ++ [sp]) ++ br :: B) (s_heap s)) by (by rewrite <- app_assoc).
  apply w_step; [lia|done|]. rewrite Hx. eapply wp_eq; [apply gf_space_stop; [by rewrite (kc_at _ _ _ _ _ H)|done]|]. apply wp_bind.
  destruct f as [|f0]; [lia|]. rewrite single_return_eq. apply wp_bind, wp_get_kind. rewrite (kc_at _ _ _ _ _ H), Ks. kred. cbv iota. apply wp_bind, wp_get_next.
  pose proof (kc_link _ _ _ H A sp br B eq_refl) as Nx. rewrite Nx.
  apply wp_bind. eapply wp_ok; [apply find_here; [lia|by rewrite (kc_at _ _ _ _ _ H1), Kb]|]. apply wp_bind, wp_get_kind. rewrite (kc_at _ _ _ _ _ H1), Kb. kred. cbv iota.
  apply wp_bind. eapply wp_ok; [apply (sr_cells lo (A ++ [sp]) br B s [] []); [done|by rewrite <- app_assoc|cbn [length]; lia|by intros c Hc%elem_of_nil|rewrite Kb; apply mem_kind_true; reflexivity]|].
  cbn [fst snd app map]. apply wp_bind. apply (wp_ok _ tt _ _ s); [done|]. apply wp_ret, wp_ret. cbn [fst snd]. rewrite Nx. change (ptr_eqb (Some (fst br)) None) with false.
  apply w_step; [lia|apply at_target|]. cbn [w_x]. unfold gf_sw at 1. apply wp_bind, wp_get_kind. rewrite (kc_at _ _ _ _ _ H1), Kb. kred. cbv iota. apply wp_bind.
  eapply wp_mono; [exact HQ|]. intros r s' H'. cbv beta. apply wp_ret. cbn [fst snd]. exact H'.
Qed.
Lemma gf_open f lo (A : list cell) (sp br : cell) fuel w (s : st) : base (s_heap s) -> Kc lo (A ++ [sp; br]) (s_heap s) -> knd sp = KSpace -> knd br = KCurlyL ->
  6 * length ls + 11 <= f -> length ls + 2 <= fuel -> w_x w = (true, true) -> at_node (Some (fst sp)) w ->
  wp (gfw f fuel (Some (fst sp)) w) (fun r s' => base (s_heap s') /\ Kc lo (A ++ [sp; br]) (s_heap s') /\ done_at (snd r) s') s.
Proof.
  intros Bs H Ks Kb Lf Lfu Hx At. eapply gf_brace; [done|exact H|done|done|lia|lia|done|done|].
  assert (Hin : br ∈ A ++ [sp; br]) by (rewrite elem_of_app; right; right; by left).
  pose proof (kc_in _ _ _ _ H Hin) as Hl. apply elem_of_list_lookup in Hl as (i & Ei).
  eapply wp_mono; [apply (nest_pure i); [done|by apply from_at|lia]|]. intros r s1 [E1 _]. cbv beta.
  rewrite <- E1 in Bs, H. eapply wp_mono.
  - apply (gf_rest lo (A ++ [sp; br])); [done|done| |lia|lia]. pose proof (cursor_tail lo _ _ Bs H) as Ft. unfold cursor in Ft.
    assert (El : last (A ++ [sp; br]) = Some br) by (by rewrite (app_assoc A [sp] [br] : A ++ [sp; br] = _), last_snoc). rewrite El in Ft. exact Ft.
  - intros r' s' (B' & K' & H'). split; [done|]. split; [done|]. intros l Hl. specialize (H' l Hl). rewrite contain_new in H'. apply bool_decide_eq_true in H'. by apply elem_of_list_singleton in H'.
Qed.
Lemma gf_body f lo (A Bd E R : list cell) (sp br cl : cell) fuel w (s : st) (Q : _ -> st -> Prop) : base (s_heap s) -> Kc lo (A ++ sp :: br :: Bd ++ cl :: E ++ R) (s_heap s) ->
  knd sp = KSpace -> knd br = KCurlyL -> knd cl = KCurlyR -> line_end (map snd E) -> nested KCurlyL KCurlyR (map snd (map snd Bd)) ->
  length Bd + 4 <= f -> length Bd + 6 <= fuel -> w_x w = (true, true) -> at_node (Some (fst sp)) w ->
  (forall c, last E = Some c -> Q (mkWl false None (true, true), Some (fst c)) s) -> wp (gfw f fuel (Some (fst sp)) w) Q s.
Proof.
  intros Bs H Ks Kb Kl He Ne Lf Lfu Hx At HQ. eapply gf_brace; [done|exact H|done|done|lia|lia|done|done|].
  assert (H1 : Kc lo ((A ++ [sp]) ++ (br :: Bd ++ [cl]) ++ E ++ R) (s_heap s)) by (rewrite <- !app_assoc; cbn [app]; rewrite <- app_assoc; exact H).
  assert (H2 : Kc lo ((A ++ [sp; br]) ++ Bd ++ cl :: E ++ R) (s_heap s)) by (rewrite <- app_assoc; exact H).
  assert (H3 : Kc lo ((A ++ sp :: br :: Bd) ++ cl :: E ++ R) (s_heap s)) by (rewrite <- app_assoc; exact H).
  assert (H0 : Kc lo ((A ++ [sp]) ++ br :: Bd ++ cl :: E ++ R) (s_heap s)) by (rewrite <- app_assoc; exact H).
  pose proof (kc_stretch _ _ _ _ _ H1) as Sg. rewrite map_cons, map_app in Sg.
  eapply wp_mono; [eapply curly_pure; [exact Sg| |by rewrite (kc_at _ _ _ _ _ H0)|by rewrite (kc_at _ _ _ _ _ H3)|rewrite map_length; lia]|].
  { rewrite (kc_kinds _ _ _ _ _ H2). exact Ne. }
  intros r s' [-> ->]. cbv beta. rewrite (cursor_next _ _ _ _ _ H0). rewrite <- app_assoc. cbn [app].
  eapply w_jumped; [done|exact H2|lia|]. apply w_step; [lia|apply at_target|]. cbn [w_x].
  apply (wp_ok _ (Cont, (true, true)) _ _ s). { unfold gf_sw, bind, get_kind, ret. cbn [res_bind]. rewrite (kc_at _ _ _ _ _ H3), Kl. reflexivity. }
  cbn [fst snd]. rewrite (cursor_next _ _ _ _ _ H3).
  assert (H4 : Kc lo (((A ++ sp :: br :: Bd) ++ [cl]) ++ E ++ R) (s_heap s)) by (rewrite <- !app_assoc; cbn [app]; exact H).
  eapply gf_line; [done|exact H4|done|lia|lia|done|apply at_fresh|done].
Qed.

Lemma kc_size lo C h : base h -> Kc lo C h -> length C <= length ls.
Proof.
  intros Bs H. rewrite <- (map_length fst). apply submseteq_length, NoDup_submseteq; [by eapply kc_nodup|].
  intros x Hx. apply elem_of_list_fmap in Hx as (c & -> & Hc). by eapply kc_in.
Qed.
(** ** Declarations of functions *)
Definition declared (lo : nat) (A : list cell) (ts' : list lexeme) (E : list cell) (r : ptr) (s' : st) : Prop :=
  base (s_heap s') /\ (exists S', map snd S' = ts' /\ Kc lo (A ++ S' ++ E) (s_heap s')) /\ done_at r s'.
Lemma line_ends (E R : list cell) : line_end (map snd E) -> ends (E ++ R).
Proof.
  intros H. inversion H as [u Eq|sx cx u Eq]; (destruct E as [|e E]; [done|]); cbn [map] in Eq; injection Eq as Ee _; (eexists; split; [cbn [app map head hd_error]; reflexivity|]); rewrite <- Ee; apply mem_kind_true; reflexivity.
Qed.
Lemma sig_ends E : sig_end (map snd E) -> ends E.
Proof.
  intros H. inversion H as [e ts Le Eq|s t Eq|s t bd u e ts Ne Le Eq].
  - symmetry in Eq. apply map_eq_app in Eq as (E1 & E2 & -> & <- & _). by apply line_ends.
  - destruct E as [|c E]; [done|]. cbn [map] in Eq. injection Eq as Eq _. exists (knd c). split; [done|]. rewrite <- Eq. apply mem_kind_true; reflexivity.
  - destruct E as [|c E]; [done|]. cbn [map] in Eq. injection Eq as Eq _. exists (knd c). split; [done|]. rewrite <- Eq. apply mem_kind_true; reflexivity.
Qed.
Lemma gf_decl f lo ts ts' (A S E : list cell) fuel w prm (s : st) : signature ts ts' -> sig_end (map snd E) -> map snd S = ts -> base (s_heap s) -> Kc lo (A ++ S ++ E) (s_heap s) ->
  6 * length ls + 11 <= f -> 2 * length ls + 4 <= fuel -> w_x w = (false, prm) -> at_node (cursor (s_heap s) A (S ++ E)) w ->
  wp (gfw f fuel (cursor (s_heap s) A (S ++ E)) w) (fun r => declared lo A ts' E (snd r)) s.
Proof.
  intros Sg He Es Bs H Lf Lfu Hx At. pose proof (kc_size _ _ _ Bs H) as Ls. rewrite !app_length in Ls.
  eapply (sig_walk f lo E); [exact Sg|by apply sig_ends|done|done|done|lia|lia|exact Hx|done|].
  intros S' s1 w1 fuel1 Es1 B1 H1 Hx1 At1 Lf1. inversion He as [e tr Le Eq|sx t Eq|sx t bd u e tr Ne Le Eq].
  - symmetry in Eq. apply map_eq_app in Eq as (E1 & E2 & -> & <- & _). rewrite app_length in Ls. rewrite app_assoc in H1.
    eapply gf_line; [done|exact H1|done|lia|lia|done|done|]. intros c Hc. split; [done|]. split; [exists S'; by rewrite <- app_assoc in H1|].
    intros l [= <-]. pose proof (line_end_last _ _ Le Hc) as Kn. apply last_Some in Hc as [F ->].
    assert (H2 : Kc lo (((A ++ S') ++ F) ++ c :: E2) (s_heap s1)) by (rewrite <- !app_assoc in *; exact H1). by rewrite (kc_at _ _ _ _ _ H2).
  - destruct E as [|c [|d [|]]]; [done|done| |done]. cbn [map cursor] in *. injection Eq as Eq1 Eq2. rewrite app_assoc in H1. eapply wp_mono.
    + apply (gf_open f lo (A ++ S') c d); [done|done|by rewrite <- Eq1|by rewrite <- Eq2|lia|lia|done|done].
    + intros r s2 (B2 & K2 & D2). split; [done|]. split; [|done]. exists S'. by rewrite <- app_assoc in K2.
  - destruct E as [|c [|d E]]; [done|done|]. cbn [map cursor] in *. injection Eq as Eq1 Eq2 Eq3. symmetry in Eq3. apply map_eq_app in Eq3 as (Bd & E3 & -> & <- & Eq3).
    destruct E3 as [|cl E3]; [done|]. cbn [map] in Eq3. injection Eq3 as Eq3 Eq4. apply map_eq_app in Eq4 as (En & E4 & -> & <- & _).
    rewrite app_assoc in H1. cbn [length] in Ls. rewrite app_length in Ls. cbn [length] in Ls. rewrite app_length in Ls. pose proof (line_end_pos _ Le).
    eapply (gf_body f lo (A ++ S') Bd En E4 c d cl); [done|exact H1|by rewrite <- Eq1|by rewrite <- Eq2|by rewrite Eq3|done|done|lia|lia|done|done|].
    intros c0 Hc. split; [done|]. split; [exists S'; by rewrite <- app_assoc in H1|]. intros l [= <-].
    pose proof (line_end_last _ _ Le Hc) as Kn. apply last_Some in Hc as [F ->].
    assert (H4 : Kc lo ((A ++ S' ++ c :: d :: Bd ++ cl :: F) ++ c0 :: E4) (s_heap s1)) by (repeat (rewrite <- ?app_assoc in *; cbn [app] in *); exact H1).
    by rewrite (kc_at _ _ _ _ _ H4).
Qed.
Lemma gf_gap f lo (A B : list cell) (c : cell) fuel w prm (s : st) Q : Kc lo (A ++ c :: B) (s_heap s) -> knd c = KSpace -> 0 < fuel -> w_x w = (false, prm) -> at_node (Some (fst c)) w ->
  wp (gfw f (pred fuel) (cursor (s_heap s) (A ++ [c]) B) (mkWl false None (false, prm))) Q s -> wp (gfw f fuel (Some (fst c)) w) Q s.
Proof.
  intros H Hk Lf Hx At HQ. apply w_step; [done|done|]. rewrite Hx. apply (wp_ok _ (Cont, (false, prm)) _ _ s).
  - unfold gf_sw, bind, get_kind, ret. cbn [res_bind]. rewrite (kc_at _ _ _ _ _ H), Hk. reflexivity.
  - cbn [fst snd]. rewrite (cursor_next _ _ _ _ _ H). exact HQ.
Qed.
(** From the space after [func], for functions and for methods. *)
Inductive rest_of : list lexeme -> list lexeme -> Prop :=
| ro_func ts ts' : signature ts ts' -> rest_of ts ts'
| ro_method r r' s ts ts' : parens KParamName KParamType r r' -> signature ts ts' -> rest_of (r ++ (s, KSpace) :: ts) (r' ++ (s, KSpace) :: ts').
Lemma gf_general lo (fc sp : cell) (S E : list cell) ts ts' f (s : st) p : rest_of ts ts' -> sig_end (map snd E) -> map snd S = ts -> knd fc = KFunc -> knd sp = KSpace ->
  base (s_heap s) -> Kc lo ([fc; sp] ++ S ++ E) (s_heap s) -> 6 * length ls + 13 <= f -> p = Some (fst fc) \/ p = Some (fst sp) ->
  wp (general_func f p [KNewLine] []) (declared lo [fc; sp] ts' E) s.
Proof.
  intros Ro He Es Kf Ks Bs H Lf Hp. pose proof (kc_size _ _ _ Bs H) as Ls. rewrite !app_length in Ls. cbn [length] in Ls.
  destruct f as [|f]; [lia|]. rewrite general_func_eq. apply wp_bind, wp_get_kind, wp_bind.
  assert (H1 : Kc lo ([fc] ++ sp :: S ++ E) (s_heap s)) by done. assert (H0 : Kc lo ([] ++ fc :: sp :: S ++ E) (s_heap s)) by done.
  apply (wp_mono _ (fun r s' => r = Some (fst sp) /\ s' = s)).
  { destruct Hp as [-> | ->].
    - rewrite (kc_at _ _ _ _ _ H0), Kf. kred. cbv iota. apply wp_bind. apply (wp_ok _ tt _ _ s); [done|]. apply wp_get_next. split; [|done]. apply (kc_link _ _ _ H [] fc sp (S ++ E) eq_refl).
    - rewrite (kc_at _ _ _ _ _ H1), Ks. kred. cbv iota. by apply wp_ret. }
  intros r0 s0 [-> ->]. unfold walk. apply wp_bind.
  apply (wp_mono _ (fun r => declared lo [fc; sp] ts' E (snd r))); [|intros r s' Hd; by apply wp_ret].
  apply (gf_gap f lo [fc] (S ++ E) sp f _ false); [done|done|lia|done|apply at_fresh|]. cbn [app].
  destruct Ro as [ts ts' Sg|rc rc' s2 ts ts' P Sg].
  - eapply gf_decl; [exact Sg|done|done|done|done|lia|lia|done|apply at_fresh].
  - apply map_eq_app in Es as (S1 & S2 & -> & E1 & E2). destruct S2 as [|[l2 [t2 k2]] S2]; [done|]. cbn [map snd] in E2. injection E2 as -> -> E2.
    rewrite !app_length in Ls. cbn [length] in Ls. rewrite <- app_assoc in *. cbn [app] in *.
    eapply (gf_paren f lo ((l2, (s2, KSpace)) :: S2 ++ E) _ rc rc' P [fc; sp]); [done|done|done|lia|lia|done|apply at_fresh|].
    intros S1' s1 w1 E1' B1 K1 Hx1 At1. cbn [cursor].
    assert (K2 : Kc lo (([fc; sp] ++ S1') ++ (l2, (s2, KSpace)) :: S2 ++ E) (s_heap s1)) by (by rewrite <- app_assoc).
    eapply (gf_gap f lo ([fc; sp] ++ S1') (S2 ++ E) (l2, (s2, KSpace))); [done|done|lia|done|exact At1|].
    eapply wp_mono; [eapply gf_decl; [exact Sg|done|done|done|by rewrite <- app_assoc|lia|lia|done|apply at_fresh]|].
    intros r s' (B' & (S' & Es' & K') & D'). split; [done|]. split; [|done]. exists (S1' ++ (l2, (s2, KSpace)) :: S'). split; [rewrite map_app; cbn [map]; by rewrite E1', Es'|].
    rewrite <- !app_assoc in *. exact K'.
Qed.
(** The walk of [func_run] stops where that of [general_func] stopped. *)
Lemma fr_after f hd r (s : st) i p fm fuel : base (s_heap s) -> from i p -> N i <= fuel -> done_at r s -> fm = (true, false) ->
  wp (iterM fuel (walk_body false [] (fr_sw f hd [])) p (mkWl (ptr_eqb r None) r fm)) (fun _ s' => s' = s) s.
Proof.
  intros Bs F Lf D ->. apply (jump_tail h0 ls _ r _ i p fuel s); [done|done|done|]. intros l ->. unfold fr_sw. apply wp_bind, wp_get_kind. rewrite (D l eq_refl). cbn [fst snd]. kred. by apply wp_ret.
Qed.
Lemma from_cell lo C h c : Kc lo C h -> c ∈ C -> from 0 (Some (fst c)).
Proof. intros H Hc. destruct (kc_lt _ _ _ _ H Hc) as (i & _ & E). exists i. split; [lia|done]. Qed.
Definition finished (lo : nat) (A : list cell) (ts' : list lexeme) (E : list cell) (s' : st) : Prop :=
  base (s_heap s') /\ exists S', map snd S' = ts' /\ Kc lo (A ++ S' ++ E) (s_heap s').
Lemma func_decl_run lo (fc sp : cell) (S E : list cell) ts ts' f (s : st) : signature ts ts' -> sig_end (map snd E) -> map snd S = ts -> knd fc = KFunc -> knd sp = KSpace ->
  base (s_heap s) -> Kc lo ([fc; sp] ++ S ++ E) (s_heap s) -> 6 * length ls + 14 <= f ->
  wp (func_run f ff_l (Some (fst fc)) []) (fun _ => finished lo [fc; sp] ts' E) s.
Proof.
  intros Sg He Es Kf Ks Bs H Lf. assert (H1 : Kc lo ([fc] ++ sp :: S ++ E) (s_heap s)) by done. assert (H0 : Kc lo ([] ++ fc :: sp :: S ++ E) (s_heap s)) by done.
  assert (Ff : from 0 (Some (fst fc))) by (apply (from_cell _ _ _ fc H); by left).
  assert (Fs : from 0 (Some (fst sp))) by (apply (from_cell _ _ _ sp H); right; by left).
  destruct f as [|f]; [lia|]. rewrite func_run_eq. cbn [ff_param ff_iface ff_lead ff_l]. apply wp_bind.
  eapply wp_mono; [apply (is_temp_ok h0 ls 0); [done|done|lia]|]. intros tmp s' ->. cbv beta.
  assert (G : forall p, p = Some (fst fc) \/ p = Some (fst sp) -> wp (general_func f p [KNewLine] []) (declared lo [fc; sp] ts' E) s).
  { intros p Hp. eapply gf_general; [by apply ro_func|done|done|done|done|done|done|lia|done]. }
  destruct tmp. { eapply wp_mono; [apply G; by left|]. intros r s' (B' & HS & _). by split. }
  apply wp_bind, wp_get_kind, wp_bind. apply (wp_ok _ tt _ _ s); [done|]. apply wp_bind, wp_get_next.
  rewrite (kc_at _ _ _ _ _ H0), Kf. kred. rewrite (kc_link _ _ _ H [] fc sp (S ++ E) eq_refl).
  unfold fr_main, walk. apply wp_bind. cbn [ff_notmethod ff_l]. apply w_step; [lia|apply at_fresh|]. cbn [w_x].
  apply (wp_ok _ (Cont, (false, false)) _ _ s).
  { unfold fr_sw, bind, get_kind, ret. cbn [res_bind]. rewrite (kc_at _ _ _ _ _ H1), Ks. reflexivity. }
  cbn [fst snd]. destruct S as [|[ln [n k]] S]; [subst ts; inversion Sg|]. assert (k = KRaw) as -> by (subst ts; inversion Sg; done).
  rewrite (kc_link _ _ _ H [fc] sp (ln, (n, KRaw)) (S ++ E) eq_refl). cbn [fst].
  assert (H2 : Kc lo ([fc; sp] ++ (ln, (n, KRaw)) :: S ++ E) (s_heap s)) by done.
  apply w_step; [lia|apply at_fresh|]. cbn [w_x]. unfold fr_sw at 1. apply wp_bind, wp_get_kind. rewrite (kc_kind _ _ _ _ _ _ _ H2). cbn [fst snd]. kred. cbv iota. apply wp_bind.
  eapply wp_mono; [apply G; by right|]. intros r s' (B' & HS & D'). cbv beta. apply wp_ret. cbn [fst snd].
  assert (Fn : from 0 (Some ln)) by (apply (from_cell _ _ _ (ln, (n, KRaw)) H2); rewrite elem_of_app; right; by left).
  eapply wp_mono; [apply (fr_after f _ r s' 0); [done|eapply from_mono; [|eapply base_next; [exact B'|exact Fn]]; lia|lia|done|done]|]. intros r' s2 ->. apply wp_ret. by split.
Qed.

(** A receiver that has been refined is not changed again. *)
Lemma typed_off ps : map (typed false) ps = ps.
Proof. induction ps as [|p ps IH]; [done|]. cbn [map]. by rewrite IH. Qed.
Lemma refines_again b ts ts' name typ : refines false name typ b ts ts' -> name = KMethodReceiverName -> typ = KMethodReceiverType -> KFunc ∉ map snd ts ->
  forall n2 t2 b2, refines false n2 t2 b2 ts' ts'.
Proof.
  induction 1 as [name typ b|name typ b t ts ts' R IH|name typ b t k ts ts' Nk R IH|name typ b t ps u ts ts' Sq R IH|name typ b t u ps ps' v ts ts' P R IH|b t u ts ts' R IH]; intros E1 E2 Nf n2 t2 b2; [subst name typ..|done].
  - constructor.
  - cbn [map] in Nf. apply not_elem_of_cons in Nf as [_ Nf]. apply rf_other; [destruct b; apply mem_kind_false; reflexivity|by apply IH].
  - cbn [map] in Nf. apply not_elem_of_cons in Nf as [_ Nf]. apply rf_other; [done|by apply IH].
  - rewrite typed_off. rewrite <- (typed_off ps) at 2. apply rf_square; [done|]. apply IH; [done|done|]. intros Hf. apply Nf. cbn [map]. rewrite map_app. cbn [map]. rewrite elem_of_cons, elem_of_app, elem_of_cons. auto.
  - exfalso. apply Nf. cbn [map snd]. by left.
Qed.
Lemma params_again ts ts' name typ : params false name typ ts ts' -> name = KMethodReceiverName -> typ = KMethodReceiverType -> KFunc ∉ map snd ts -> forall n2 t2, params false n2 t2 ts' ts'.
Proof.
  induction 1 as [name typ p p' R|name typ p p' t ps ps' R P IH]; intros -> -> Nf n2 t2.
  - apply pm_one. by eapply refines_again.
  - rewrite map_app in Nf. cbn [map] in Nf. apply not_elem_of_app in Nf as [Nf1 Nf2]. apply not_elem_of_cons in Nf2 as [_ Nf2].
    apply pm_more; [by eapply refines_again|by apply IH].
Qed.
Lemma parens_again r r' : parens KMethodReceiverName KMethodReceiverType r r' -> KFunc ∉ map snd r -> parens KParamName KParamType r' r'.
Proof.
  intros [t ps ps' u P] Nf. apply pr_intro. eapply params_again; [exact P|done|done|]. intros Hf. apply Nf. cbn [map]. rewrite map_app, elem_of_cons, elem_of_app. auto.
Qed.
Lemma method_decl_run lo (fc sp : cell) (S E : list cell) r r' s2 ts ts' f (s : st) xs :
  parens KMethodReceiverName KMethodReceiverType r r' -> KFunc ∉ map snd r -> signature ts ts' -> sig_end (map snd E) -> map snd S = r ++ (s2, KSpace) :: ts -> knd fc = KFunc -> knd sp = KSpace ->
  base (s_heap s) -> Kc lo ([fc; sp] ++ S ++ E) (s_heap s) -> 6 * length ls + 14 <= f -> nseg (s_heap s) (Some (fst fc)) xs None ->
  ~ called_at_once (map (fun l => kind_of (s_heap s) (Some l)) xs) ->
  wp (func_run f ff_l (Some (fst fc)) []) (fun _ => finished lo [fc; sp] (r' ++ (s2, KSpace) :: ts') E) s.
Proof.
  intros P Nf Sg He Es Kf Ks Bs H Lf Hxs Nc. assert (H1 : Kc lo ([fc] ++ sp :: S ++ E) (s_heap s)) by done. assert (H0 : Kc lo ([] ++ fc :: sp :: S ++ E) (s_heap s)) by done.
  assert (Ff : from 0 (Some (fst fc))) by (apply (from_cell _ _ _ fc H); by left).
  pose proof (kc_size _ _ _ Bs H) as Ls.
  destruct f as [|f]; [lia|]. rewrite func_run_eq. cbn [ff_param ff_iface ff_lead ff_l]. apply wp_bind.
  eapply wp_mono; [apply (is_temp_called h0 ls 0 _ _ _ xs); [done|done|lia|done]|]. intros tmp s' [-> Ht]. cbv beta.
  destruct tmp; [destruct Nc; by apply Ht|]. clear Ht Nc Hxs.
  apply wp_bind, wp_get_kind, wp_bind. apply (wp_ok _ tt _ _ s); [done|]. apply wp_bind, wp_get_next.
  rewrite (kc_at _ _ _ _ _ H0), Kf. kred. rewrite (kc_link _ _ _ H [] fc sp (S ++ E) eq_refl).
  unfold fr_main, walk. apply wp_bind. cbn [ff_notmethod ff_l]. apply w_step; [lia|apply at_fresh|]. cbn [w_x].
  apply (wp_ok _ (Cont, (false, false)) _ _ s).
  { unfold fr_sw, bind, get_kind, ret. cbn [res_bind]. rewrite (kc_at _ _ _ _ _ H1), Ks. reflexivity. }
  cbn [fst snd]. pose proof (parens_again _ _ P Nf) as P2. destruct P as [t qs qs' u Pm].
  apply map_eq_app in Es as (S1 & S2 & -> & E1 & E2). destruct S2 as [|[l2 [t2 k2]] S2]; [done|]. cbn [map snd] in E2. injection E2 as -> -> E2.
  destruct S1 as [|[lo1 [t' k']] P0]; [done|]. cbn [map snd] in E1. injection E1 as -> -> E1. apply map_eq_app in E1 as (P1 & Q2 & -> & EP & E3).
  destruct Q2 as [|[lc [u' k']] [|]]; [done| |done]. cbn [map snd] in E3. injection E3 as -> ->.
  cbn [app] in H, H0, H1. rewrite <- !app_assoc in *. cbn [app] in *. cbn [length] in Ls. repeat (rewrite app_length in Ls; cbn [length] in Ls).
  rewrite (kc_link _ _ _ H [fc] sp (lo1, (t, KParenL)) _ eq_refl). cbn [fst].
  assert (H2 : Kc lo ([fc; sp] ++ (lo1, (t, KParenL)) :: P1 ++ (lc, (u, KParenR)) :: (l2, (s2, KSpace)) :: S2 ++ E) (s_heap s)) by exact H.
  apply w_step; [lia|apply at_fresh|]. cbn [w_x]. unfold fr_sw at 1. apply wp_bind, wp_get_kind. rewrite (kc_kind _ _ _ _ _ _ _ H2). cbn [fst snd]. kred. cbv iota. apply wp_bind.
  eapply wp_mono; [apply (paren_walk false (length qs) true qs qs' lo [fc; sp] (lo1, (t, KParenL)) P1 (lc, (u, KParenR)) ((l2, (s2, KSpace)) :: S2 ++ E) f s Pm ltac:(lia) EP eq_refl eq_refl Bs H2); lia|].
  clear Bs H H0 H1 H2. intros r1 s1 (-> & B1 & S' & K1 & M1 & M2). cbv beta. apply wp_ret. cbn [fst snd cursor]. pose proof (fst_length _ _ M2) as Lss.
  assert (K2 : Kc lo ([fc; sp] ++ (lo1, (t, KParenL)) :: S' ++ (lc, (u, KParenR)) :: (l2, (s2, KSpace)) :: S2 ++ E) (s_heap s1)) by exact K1.
  pose proof (cursor_next _ _ _ _ _ K2) as Nx2. cbn [fst] in Nx2. rewrite Nx2.
  change (Some lc) with (Some (fst (lc, (u, KParenR)))). eapply w_jumped; [done|exact K1|lia|]. cbn [fst].
  apply w_step; [lia|apply at_target|]. cbn [w_x]. unfold fr_sw at 1. apply wp_bind, wp_get_kind. pose proof K1 as K3. rewrite app_assoc in K3. rewrite (kc_kind _ _ _ _ _ _ _ K3). cbn [fst snd]. kred. cbv iota. apply wp_bind.
  eapply wp_mono.
  { eapply (gf_general lo fc sp (((lo1, (t, KParenL)) :: S' ++ [(lc, (u, KParenR))]) ++ (l2, (s2, KSpace)) :: S2) E); [apply ro_method; [exact P2|exact Sg]|done| |done|done|done| |lia|by right].
    - rewrite map_app, map_cons, map_app, M1. cbn [map snd]. by rewrite E2.
    - cbn [app]. rewrite <- !app_assoc. exact K1. }
  intros r2 s3 (B' & HS & D'). cbv beta. apply wp_ret. cbn [fst snd].
  assert (Fn : from 0 (Some lc)) by (apply (from_cell _ _ _ (lc, (u, KParenR)) K3); rewrite elem_of_app; right; by left).
  eapply wp_mono; [apply (fr_after f _ r2 s3 0); [done|eapply from_mono; [|eapply base_next; [exact B'|exact Fn]]; lia|lia|done|done]|]. intros r' s4 ->. apply wp_ret. by split.
Qed.
End cells.
