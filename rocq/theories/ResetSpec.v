(** What refining a scope does, whatever its nodes. *)
From Verif Require Export ResetTop SplitProofs.

Lemma sublist_in {A} (xs ys : list A) x : xs `sublist_of` ys -> x ∈ xs -> x ∈ ys.
Proof.
  induction 1 as [|y xs ys _ IH|y xs ys _ IH]; [done|..]; rewrite ?elem_of_cons; [|by auto].
  intros [->|H]; auto.
Qed.
Lemma chain_closed h ls a b : SpecNode.wf h -> chain h ls -> a ∉ ls -> next_of h (Some a) = Some b -> b ∉ ls.
Proof.
  intros W C Ha N Hb. apply Ha. apply (wf_sym h W) in N. by eapply chain_prev_in.
Qed.
Lemma chain_fwd h ls i a b : chain h ls -> ls !! i = Some a -> next_of h (Some a) = Some b -> exists j, i < j /\ ls !! j = Some b.
Proof.
  intros C E N. apply elem_of_list_split_length in E as (xs & ys & -> & ->).
  rewrite (chain_next h xs a ys C) in N. destruct ys as [|y ys]; [done|]. injection N as ->.
  exists (S (length xs)). split; [lia|]. rewrite lookup_app_r by lia. replace (S (length xs) - length xs) with 1 by lia. done.
Qed.
Lemma base_init h ls : SpecNode.wf h -> chain h ls -> base h ls h.
Proof.
  intros W C. constructor; try done; [|by left].
  intros i a b. by apply chain_fwd.
Qed.

Section chain.
Context (h0 : heap) (ls : list loc) (W0 : SpecNode.wf h0) (C0 : chain h0 ls).
Lemma c_nd : NoDup ls. Proof. by eapply chain_NoDup. Qed.
Lemma c_val a : a ∈ ls -> valid h0 a. Proof. by apply valid_chain. Qed.
Lemma c_out a b : a ∉ ls -> next_of h0 (Some a) = Some b -> b ∉ ls. Proof. by apply chain_closed. Qed.

(** The chain from the first node, in a refined heap. *)
Lemma base_path h : base h0 ls h -> forall n i a, length ls - i <= n -> ls !! i = Some a ->
  exists cur, nseg h (Some a) (a :: cur) None /\ (a :: cur) `sublist_of` drop i ls.
Proof.
  intros B. induction n as [|n IH]; intros i a Ln E.
  { apply lookup_lt_Some in E. lia. }
  rewrite (drop_S _ _ _ E). destruct (next_of h (Some a)) as [b|] eqn:N.
  - destruct (b_fwd _ _ _ B i a b E N) as (j & Lj & Ej). destruct (IH j b) as (cur & Sg & Sub); [apply lookup_lt_Some in E; lia|done|].
    exists (b :: cur). split; [cbn [nseg]; by rewrite N|]. apply sublist_skip. etrans; [exact Sub|].
    replace (drop j ls) with (drop (j - S i) (drop (S i) ls)) by (rewrite drop_drop; f_equal; lia). apply sublist_drop.
  - exists []. split; [cbn [nseg]; done|]. apply sublist_skip, sublist_nil_l.
Qed.
Lemma base_chain h : base h0 ls h -> exists cur, chain h cur /\ cur `sublist_of` ls /\ head cur = head ls.
Proof.
  intros B. destruct ls as [|a r] eqn:El; [by exists []|]. rewrite <- El in *.
  assert (E : ls !! 0 = Some a) by (by rewrite El).
  destruct (base_path h B (length ls) 0 a ltac:(lia) E) as (cur & Sg & Sub). rewrite drop_0 in Sub.
  exists (a :: cur). split; [|split; [done|by rewrite El]].
  assert (Vc : forall l, l ∈ a :: cur -> valid h l).
  { intros l Hl. eapply base_valid; [exact c_val|exact B|]. by eapply sublist_in. }
  assert (P : prev_of h (Some a) = None).
  { destruct (prev_of h (Some a)) as [y|] eqn:P; [|done]. exfalso. apply (wf_sym h (b_wf _ _ _ B)) in P.
    destruct (decide (y ∈ ls)) as [Hy|Hy].
    - apply elem_of_list_lookup in Hy as [j Hy]. destruct (b_fwd _ _ _ B j y a Hy P) as (q & Lq & Eq).
      assert (q = 0); [|lia]. eapply NoDup_lookup; [exact c_nd|done|done].
    - assert (In : a ∈ ls) by (by eapply elem_of_list_lookup_2). by apply (base_closed h0 ls c_out h y a B Hy P). }
  apply nseg_seg; [apply B|done|..]; try done.
Qed.
End chain.

(** Every chain can be refined. *)
Lemma reset_base h ls b : SpecNode.wf h -> chain h ls ->
  exists s r, reset_kind (reset_fuel h) (head ls) (mkSt h b) = Ok (s, r) /\ base h ls (s_heap s).
Proof.
  intros W C.
  assert (Fh : from ls 0 (head ls)).
  { destruct ls as [|a r]; [done|]. exists 0. done. }
  pose proof (NoDup_bound ls (length h) (chain_NoDup h ls C) (fun x Hx => valid_chain h ls x C Hx)) as Ln.
  assert (G : wp (reset_kind (reset_fuel h) (head ls)) (post h ls (fun _ => True) any 0) (mkSt h b)).
  { apply (reset_ok h ls (c_nd h ls C) (c_val h ls C) (c_out h ls W C) true 0 (fun _ => True)); try done.
    - by apply (param_ok h ls (c_nd h ls C) (c_val h ls C) (c_out h ls W C) true 0 (fun _ => True)).
    - split; [by apply base_init|done].
    - unfold reset_fuel. lia. }
  apply wp_elim in G as (s & r & E & (B & _) & _). exists s, r. by split.
Qed.

(** ** All scopes *)
Lemma nodes_same_links (h h' : heap) l : h' !! l = h !! l -> same_links h h' l.
Proof. intros E. split; by apply field_ext. Qed.
Lemma chain_same_nodes (h h' : heap) g : length h' = length h -> (forall l, l ∈ g -> h' !! l = h !! l) -> chain h g -> chain h' g.
Proof. intros L E. apply seg_frame; [lia|]. intros l Hl. apply nodes_same_links. by apply E. Qed.

Record refined_from (h h' : heap) (g : list loc) : Prop :=
  { rf_run : exists (h1 : heap) s r, SpecNode.wf h1 /\ length h1 = length h /\ chain h1 g /\ (forall l, l ∈ g -> h1 !! l = h !! l) /\
      reset_kind (reset_fuel h1) (head g) (mkSt h1 []) = Ok (s, r) /\ base h1 g (s_heap s) /\
      (forall l, l ∈ g -> h' !! l = s_heap s !! l) /\ length h' = length (s_heap s) }.
Lemma reset_all_spec gs : forall h : heap, SpecNode.wf h -> Forall (chain h) gs -> NoDup (concat gs) ->
  exists h', reset_all h (map head gs) = Ok h' /\ SpecNode.wf h' /\ length h' = length h /\
    (forall l, l ∉ concat gs -> h' !! l = h !! l) /\ Forall (refined_from h h') gs.
Proof.
  induction gs as [|g gs IH]; intros h W F D; [by exists h|].
  apply Forall_cons in F as [C F]. cbn [concat] in D. apply NoDup_app in D as (D1 & D2 & D3).
  destruct (reset_base h g [] W C) as (s & r & E & B). cbn [map reset_all]. rewrite E. cbn [res_bind].
  pose proof (b_len _ _ _ B) as L1.
  assert (F1 : Forall (chain (s_heap s)) gs).
  { apply Forall_forall. intros g' Hg'. rewrite Forall_forall in F. apply (chain_same_nodes h); [done| |by apply F].
    intros l Hl. apply B. intros Hin. apply (D2 l Hin). apply elem_of_list_In, in_concat. exists g'. split; by apply elem_of_list_In. }
  destruct (IH (s_heap s) (b_wf _ _ _ B) F1 D3) as (h' & E' & W' & L' & O' & R'). exists h'.
  split; [done|]. split; [done|]. split; [by rewrite L'|]. split.
  - intros l Hl. cbn [concat] in Hl. rewrite elem_of_app in Hl. rewrite O' by tauto. apply B. tauto.
  - constructor.
    + constructor. exists h, s, r. split; [done|]. split; [done|]. split; [done|]. split; [done|]. split; [done|]. split; [done|]. split; [|done].
      intros l Hl. apply O'. intros Hin. by apply (D2 l Hl).
    + rewrite Forall_forall in R' |- *. intros g' Hg'. destruct (R' g' Hg') as [(h1 & s1 & r1 & W1 & L1' & C1 & E1 & Er & B1 & Eg & Ll)].
      constructor. exists h1, s1, r1. split; [done|]. split; [by rewrite L1'|]. split; [done|]. split; [|done].
      intros l Hl. rewrite E1 by done. apply B. intros Hin. apply (D2 l Hin). apply elem_of_list_In, in_concat. exists g'. split; by apply elem_of_list_In.
Qed.

(** ** ParseScope *)
Lemma pieces_nonempty h prev ls g gs : pieces h prev ls g gs -> Forall (fun g => g <> []) gs.
Proof. induction 1; [constructor|done|constructor; done]. Qed.
Section parse.
Context (ord : nat -> list (str * ext)) (Hord : forall i p, p ∈ ord i <-> p ∈ deeper_table).
(** Everything ParseScope does, in terms of the heap [h1] after tokenising. *)
Lemma parse_scope_spec (h : heap) startLine text : SpecNode.wf h ->
  exists (h1 h2 h3 : heap) ls g gs,
    extract ord h text = Ok (h1, head ls) /\ SpecNode.wf h1 /\ h `prefix_of` h1 /\ chain h1 ls /\ (forall l, l ∈ ls -> length h <= l) /\
    tokens text (map (pay h1) ls) /\ pieces h1 (startLine - 1) ls g gs /\
    SpecNode.wf h2 /\ same_payload h1 h2 /\ chain h2 g /\ Forall (chain h2) gs /\ (forall l, l ∉ ls -> h2 !! l = h1 !! l) /\
    SpecNode.wf h3 /\ length h3 = length h2 /\ (forall l, l ∉ concat gs -> h3 !! l = h2 !! l) /\ Forall (refined_from h2 h3) gs /\
    parse_scope ord h startLine text = Ok (h3, map (scope_of h1) gs).
Proof.
  intros W. destruct (extract_spec ord Hord h text W) as (h1 & ls & E & W1 & P & C & Fr & T).
  destruct (pieces_total h1 ls (startLine - 1)) as (g & gs & HP).
  destruct (split_spec h1 ls startLine g gs W1 C HP) as (h2 & E2 & W2 & SP & Cg & Cgs & _ & Lk).
  pose proof (chain_NoDup h1 ls C) as ND. pose proof (pieces_concat _ _ _ _ _ HP) as El.
  rewrite El in ND. apply NoDup_app in ND as (_ & _ & ND).
  destruct (reset_all_spec gs h2 W2 Cgs ND) as (h3 & E3 & W3 & L3 & O3 & R3).
  exists h1, h2, h3, ls, g, gs. do 11 (split; [done|]). split.
  { intros l Hl. apply node_ext; [apply SP|apply SP|by apply Lk]. }
  do 4 (split; [done|]).
  unfold parse_scope. rewrite E. cbn [res_bind]. rewrite E2. cbn [res_bind]. rewrite E3. cbn [res_bind].
  by rewrite (scopes_of_payload h1 h2 gs SP).
Qed.
End parse.
