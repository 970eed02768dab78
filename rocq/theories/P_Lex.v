(** C28-C33: the tokeniser (extractor.go).  Statements use the model [Extract.v]
    and the vocabulary of [SpecNode.v] and [SpecLex.v]. *)
From Verif Require Import LexRun.

(** The opener table is a Go map: at each position it is searched in some order. *)
Definition any_order (ord : nat -> list (str * ext)) : Prop := forall i, ord i ≡ₚ deeper_table.
Lemma any_order_elem ord : any_order ord -> forall i p, p ∈ ord i <-> p ∈ deeper_table.
Proof. intros H i p. by rewrite (H i). Qed.
Example ex_order : any_order src_ord /\ any_order (fun i => if Nat.even i then rev deeper_table else deeper_table).
Proof. split; intros i; [done|]. destruct (Nat.even i); [|done]. symmetry. apply Permutation_rev. Qed.
Example ex_wf_empty : SpecNode.wf []. Proof. apply wf_nil. Qed.

(** The tokeniser returned a node, and these are all nodes of its chain. *)
Definition tokenised (ord : nat -> list (str * ext)) (h : heap) (text : str) (h' : heap) (ls : list loc) : Prop :=
  extract ord h text = Ok (h', head ls) /\ chain h' ls.
(** What a user sees of the result on an empty heap: lines, texts, kinds. *)
Definition show (text : str) : list (Z * str * kind) :=
  match extract src_ord [] text with
  | Ok (h, _) => map (pay h) (seq 0 (length h))
  | _ => []
  end.

(** ** C29 *)
Theorem C29_tokeniser_terminates : forall ord h text, any_order ord -> SpecNode.wf h ->
  exists h' ls, tokenised ord h text h' ls /\ SpecNode.wf h' /\ h `prefix_of` h' /\
    (forall l, l ∈ ls -> length h <= l) /\ (ls = [] <-> text = []).
Proof.
  intros ord h text O W. destruct (extract_spec ord (any_order_elem ord O) h text W) as (h' & ls & E & W' & P & C & N & T).
  exists h', ls. split_and!; try done. split.
  - intros ->. inversion T; done.
  - intros ->. apply scan_nil_inv in T. by apply map_eq_nil in T.
Qed.
(** The chain is determined by the returned node. *)
Lemma tokenised_det ord h text h' ls h'' ls' : tokenised ord h text h' ls -> tokenised ord h text h'' ls' -> h' = h'' /\ ls = ls'.
Proof.
  intros [E C] [E' C']. rewrite E in E'. injection E' as <- Hd. split; [done|].
  destruct ls as [|l ls], ls' as [|l' ls']; try done. injection Hd as <-. apply (chain_unique h' _ _ l C C'); by left.
Qed.
Theorem C29_chain_determined : forall ord h text h' ls h'' ls',
  tokenised ord h text h' ls -> tokenised ord h text h'' ls' -> h' = h'' /\ ls = ls'.
Proof. exact tokenised_det. Qed.
Example ex_C29 : tokenised src_ord [] $"a,b" (fst (new_nodes [] 0 [$"a"; $","; $"b"])) [0; 1; 2].
Proof. split; [vm_compute; reflexivity|vm_compute; repeat split; lia]. Qed.

Lemma tokenised_tokens ord h text h' ls : any_order ord -> SpecNode.wf h -> tokenised ord h text h' ls ->
  tokens text (map (pay h') ls).
Proof.
  intros O W H. destruct (extract_spec ord (any_order_elem ord O) h text W) as (h2 & ls2 & E & W' & P & C & N & T).
  by destruct (tokenised_det _ _ _ _ _ h2 ls2 H (conj E C)) as [-> ->].
Qed.
Lemma texts_map (h : heap) ls : texts (map (pay h) ls) = concat (map (fun l => text_of h (Some l)) ls).
Proof. unfold texts. by rewrite map_map. Qed.

(** ** C28 *)
Theorem C28_tokeniser_lossless : forall ord h text h' ls, any_order ord -> SpecNode.wf h -> tokenised ord h text h' ls ->
  concat (map (fun l => text_of h' (Some l)) ls) = text /\ forall l, l ∈ ls -> text_of h' (Some l) <> [].
Proof.
  intros ord h text h' ls O W H. apply tokenised_tokens in H; [|done..]. split.
  - rewrite <- texts_map. by eapply scan_texts.
  - intros l Hl. apply scan_nonempty in H. rewrite Forall_forall in H. apply (H (pay h' l)).
    apply elem_of_list_fmap. by exists l.
Qed.
Example ex_C28 : exists h' ls, tokenised src_ord [] $"f(x)" h' ls /\ length ls = 4.
Proof. eexists _, [0; 1; 2; 3]. split; [split; [vm_compute; reflexivity|vm_compute; repeat split; lia]|done]. Qed.

(** ** C30 *)
Theorem C30_tokeniser_scans : forall ord h text h' ls, any_order ord -> SpecNode.wf h -> tokenised ord h text h' ls ->
  tokens text (map (pay h') ls).
Proof. exact tokenised_tokens. Qed.
(** Every text has exactly one division into tokens. *)
Theorem C30_tokens_unique : forall text ts ts', tokens text ts -> tokens text ts' -> ts = ts'.
Proof. exact tokens_unique. Qed.
Theorem C30_tokens_total : forall text, exists ts, tokens text ts.
Proof.
  intros text. destruct (C29_tokeniser_terminates src_ord [] text) as (h' & ls & T & _); [by intros i|apply wf_nil|].
  eexists. eapply tokenised_tokens; [|apply wf_nil|exact T]. by intros i.
Qed.
Theorem C30_first_token_unique : forall s t k r t' k' r', token s t k r -> token s t' k' r' -> t = t' /\ k = k' /\ r = r'.
Proof. exact token_unique. Qed.
Example ex_C30 : map (fun t => (snd (fst t), snd t)) (show ($"x/*a(*/y " ++ [c_dq] ++ $"(" ++ [c_dq] ++ $"//b")) =
  [($"x", KRaw); ($"/*a(*/", KComment); ($"y", KRaw); ($" ", KSpace); ([c_dq] ++ $"(" ++ [c_dq], KString); ($"//b", KRaw)].
Proof. vm_compute. reflexivity. Qed.

(** ** C31 *)
Theorem C31_order_independent : forall ord ord' h text, any_order ord -> any_order ord' ->
  extract ord h text = extract ord' h text.
Proof.
  intros ord ord' h text O O'. unfold extract. by rewrite (run_order _ ord ord') by (by apply any_order_elem).
Qed.

(** ** C32 *)
(** The text before the [i]-th token. *)
Definition before (h : heap) (ls1 : list loc) : str := concat (map (fun l => text_of h (Some l)) ls1).
Lemma tokenised_at ord h text h' ls1 l ls2 : any_order ord -> SpecNode.wf h -> tokenised ord h text h' (ls1 ++ l :: ls2) ->
  exists b, (0 <= b <= count_nl (before h' ls1))%Z /\ line_rule (count_nl (before h' ls1)) b (text_of h' (Some l)) (line_of h' (Some l)).
Proof.
  intros O W H. apply tokenised_tokens in H; [|done..]. rewrite map_app in H. unfold tokens in H.
  apply scan_bounds in H as (b & st & s & B & S); [|lia|constructor].
  rewrite texts_map in *. fold (before h' ls1) in *. rewrite Z.add_0_l in *. cbn [map] in S.
  exists b. split; [done|]. inversion S; subst. done.
Qed.
Theorem C32_line : forall ord h text h' ls1 l ls2, any_order ord -> SpecNode.wf h -> tokenised ord h text h' (ls1 ++ l :: ls2) ->
  text_of h' (Some l) <> $"(" -> text_of h' (Some l) <> $"{" -> (forall d, ~ cut_off d (text_of h' (Some l))) ->
  line_of h' (Some l) = count_nl (before h' ls1).
Proof.
  intros ord h text h' ls1 l ls2 O W H N1 N2 N3. apply tokenised_at in H as (b & _ & (_ & _ & R)); [|done..].
  apply R; [|done..]. intros [d C]. by apply (N3 d).
Qed.
Theorem C32_line_cut_off : forall ord h text h' ls1 l ls2, any_order ord -> SpecNode.wf h -> tokenised ord h text h' (ls1 ++ l :: ls2) ->
  (exists d, cut_off d (text_of h' (Some l))) -> line_of h' (Some l) = count_nl (before h' ls1 ++ text_of h' (Some l)).
Proof.
  intros ord h text h' ls1 l ls2 O W H C. apply tokenised_at in H as (b & _ & (R & _)); [|done..].
  rewrite count_nl_app. by apply R.
Qed.
Theorem C32_line_bracket_bounds : forall ord h text h' ls1 l ls2, any_order ord -> SpecNode.wf h ->
  tokenised ord h text h' (ls1 ++ l :: ls2) -> text_of h' (Some l) = $"(" \/ text_of h' (Some l) = $"{" ->
  (0 <= line_of h' (Some l) <= count_nl (before h' ls1))%Z.
Proof.
  intros ord h text h' ls1 l ls2 O W H C. apply tokenised_at in H as (b & B & (_ & R & _)); [|done..].
  by rewrite (R C).
Qed.
(** The line of a bracket is right when a word on the same line precedes it with
    no bracket between. *)
Definition no_bracket (t : str) : Prop := t <> $"(" /\ t <> $"{" /\ t <> $")" /\ t <> $"}".
Lemma scan_same_line mid : forall n st s m t k ts, closers st -> scan n n st s (mid ++ (m, t, k) :: ts) ->
  Forall (fun x : Z * str * kind => no_bracket (snd (fst x)) /\ c_nl ∉ snd (fst x)) mid -> t = $"(" \/ t = $"{" -> m = n.
Proof.
  induction mid as [|x mid IH]; intros n st s m t k ts Cl S F Ht.
  - inversion S as [|? ? ? ? ? ? ? ? ? ? ? T (_ & R & _)]; subst. by apply R.
  - cbn [app] in S. inversion F as [|? ? [(N1 & N2 & N3 & N4) NL] F']; subst.
    inversion S as [|? ? ? ? t' k' r' m' b' st' ts' T L B S']; subst. cbn [fst snd] in *.
    rewrite (count_nl_none _ NL), Z.add_0_r in S'.
    assert (b' = n) as ->.
    { destruct B; subst; try done. inversion Cl as [|? ? Hc ?]; subst. cbn in Hc. by destruct Hc as [-> | ->]. }
    apply (IH n st' r' m t k ts); try done. by eapply bracket_closers.
Qed.
Theorem C32_line_bracket_after_word : forall ord h text h' ls1 w mid l ls2, any_order ord -> SpecNode.wf h ->
  tokenised ord h text h' (ls1 ++ w :: mid ++ l :: ls2) ->
  is_word (text_of h' (Some w)) ->
  (forall x, x ∈ mid -> no_bracket (text_of h' (Some x)) /\ c_nl ∉ text_of h' (Some x)) ->
  text_of h' (Some l) = $"(" \/ text_of h' (Some l) = $"{" ->
  line_of h' (Some l) = count_nl (before h' (ls1 ++ w :: mid)).
Proof.
  intros ord h text h' ls1 w mid l ls2 O W H Hw Hm Hl. apply tokenised_tokens in H; [|done..].
  rewrite map_app in H. apply scan_split in H as (b & st & s & _ & Cl & S); [|constructor].
  rewrite texts_map in S. fold (before h' ls1) in S. rewrite Z.add_0_l in S. cbn [map] in S.
  inversion S as [|? ? ? ? t' k' r' m' b' st' ts' T L B S']; subst. cbn [fst snd] in *.
  assert (NW : c_nl ∉ text_of h' (Some w)).
  { intros Hn. apply token_inv in T as [(c & Hc & _ & E & _)|[(d & O' & T)|(_ & _ & _ & Wd & _)]].
    - destruct Hw as [_ Hw]. by apply Hw in E.
    - destruct Hw as [Hw _]. apply Hw. exists d. destruct T as [(_ & (_ & C & _) & _)|[(-> & (_ & C & _) & _)|(C & -> & _)]].
      + by apply closed_opener.
      + destruct C as [bb Eb]. rewrite app_assoc in Eb. apply app_inj_tail in Eb as [-> _]. by apply prefix_app_r.
      + by destruct C.
    - apply elem_of_list_split in Hn as (w1 & w2 & E). apply Wd in E as [E _]. apply E, nl_sep. }
  assert (E : b' = count_nl (before h' ls1) /\ st' = st).
  { apply (bracket_unique (count_nl (before h' ls1)) b st (text_of h' (Some w))); [done..|]. by apply bs_word. }
  destruct E as [-> ->]. rewrite (count_nl_none _ NW), Z.add_0_r in S'. rewrite map_app in S'.
  transitivity (count_nl (before h' ls1)).
  - eapply scan_same_line; [exact Cl|exact S'| |exact Hl].
    apply Forall_fmap, Forall_forall. intros x Hx. cbn. by apply Hm.
  - unfold before. rewrite map_app, concat_app, count_nl_app. cbn [map concat]. rewrite count_nl_app, (count_nl_none _ NW).
    assert (Z0 : count_nl (concat (map (fun x => text_of h' (Some x)) mid)) = 0%Z).
    { apply count_nl_none. intros Hn. apply elem_of_list_In in Hn. apply in_concat in Hn as (x & Hx & Hn). apply in_map_iff in Hx as (y & <- & Hy).
      apply elem_of_list_In in Hy, Hn. by destruct (Hm y Hy) as [_ ?]. }
    lia.
Qed.
(** The natural claim fails: a bracket at the start of line 2 reports line 0, and
    a raw string cut off by the end of the text reports its last line. *)
Theorem C32_line_refuted :
  show ([c_nl; c_nl] ++ $"(") = [(0%Z, [c_nl], KNewLine); (1%Z, [c_nl], KNewLine); (0%Z, $"(", KParenL)] /\
  show ([c_bq] ++ $"a" ++ [c_nl] ++ $"b") = [(1%Z, [c_bq] ++ $"a" ++ [c_nl] ++ $"b", KString)].
Proof. vm_compute. split; reflexivity. Qed.
Example ex_C32 : map (fun t => fst (fst t)) (show ($"a" ++ [c_nl] ++ $"f(" ++ [c_nl] ++ $"x) {")) = [0%Z; 0%Z; 1%Z; 1%Z; 1%Z; 2%Z; 2%Z; 2%Z; 1%Z].
Proof. vm_compute. reflexivity. Qed.

(** ** C33: a token that starts with a quote, back quote, // or /* *)
Lemma token_here ord h text h' ls1 l ls2 t k r : any_order ord -> SpecNode.wf h -> tokenised ord h text h' (ls1 ++ l :: ls2) ->
  text = before h' ls1 ++ t ++ r -> token (t ++ r) t k r ->
  text_of h' (Some l) = t /\ kind_of h' (Some l) = k.
Proof.
  intros O W H E T. apply tokenised_tokens in H; [|done..]. rewrite map_app in H.
  apply scan_split in H as (b & st & s & E' & _ & S); [|constructor]. rewrite texts_map in *. fold (before h' ls1) in *.
  rewrite E in E'. apply app_inv_head in E' as <-. apply (scan_first _ _ _ _ _ _ _ _ S) in T as (m & ts & E2 & _).
  injection E2 as _ -> -> _. done.
Qed.
Theorem C33_string_end : forall ord h text h' ls1 l ls2 b r, any_order ord -> SpecNode.wf h ->
  tokenised ord h text h' (ls1 ++ l :: ls2) -> text = before h' ls1 ++ [c_dq] ++ b ++ [c_dq] ++ r ->
  go_body b -> last b <> Some c_bs ->
  text_of h' (Some l) = [c_dq] ++ b ++ [c_dq] /\ kind_of h' (Some l) = KString.
Proof.
  intros ord h text h' ls1 l ls2 b r O W H E G L.
  apply (token_here ord h text h' ls1 l ls2 _ _ r O W H).
  - rewrite E. by rewrite <- !app_assoc.
  - pose proof (go_string_token b r G L) as T. by rewrite <- !app_assoc in *.
Qed.
Theorem C33_raw_string_end : forall ord h text h' ls1 l ls2 b r, any_order ord -> SpecNode.wf h ->
  tokenised ord h text h' (ls1 ++ l :: ls2) -> text = before h' ls1 ++ [c_bq] ++ b ++ [c_bq] ++ r -> c_bq ∉ b ->
  text_of h' (Some l) = [c_bq] ++ b ++ [c_bq] /\ kind_of h' (Some l) = KString.
Proof.
  intros ord h text h' ls1 l ls2 b r O W H E G.
  apply (token_here ord h text h' ls1 l ls2 _ _ r O W H).
  - rewrite E. by rewrite <- !app_assoc.
  - pose proof (raw_string_token b r G) as T. by rewrite <- !app_assoc in *.
Qed.
Theorem C33_line_comment_end : forall ord h text h' ls1 l ls2 b r, any_order ord -> SpecNode.wf h ->
  tokenised ord h text h' (ls1 ++ l :: ls2) -> text = before h' ls1 ++ $"//" ++ b ++ [c_nl] ++ r -> c_nl ∉ b ->
  text_of h' (Some l) = $"//" ++ b /\ kind_of h' (Some l) = KComment.
Proof.
  intros ord h text h' ls1 l ls2 b r O W H E G.
  apply (token_here ord h text h' ls1 l ls2 _ _ (c_nl :: r) O W H).
  - rewrite E. by rewrite <- !app_assoc.
  - pose proof (line_comment_token b r G) as T. by rewrite <- !app_assoc in *.
Qed.
Theorem C33_block_comment_end : forall ord h text h' ls1 l ls2 b r, any_order ord -> SpecNode.wf h ->
  tokenised ord h text h' (ls1 ++ l :: ls2) -> text = before h' ls1 ++ $"/*" ++ b ++ $"*/" ++ r ->
  absent $"*/" b -> head b <> Some "/"%char ->
  text_of h' (Some l) = $"/*" ++ b ++ $"*/" /\ kind_of h' (Some l) = KComment.
Proof.
  intros ord h text h' ls1 l ls2 b r O W H E G L.
  apply (token_here ord h text h' ls1 l ls2 _ _ r O W H).
  - rewrite E. by rewrite <- !app_assoc.
  - pose proof (block_comment_token b r G L) as T. by rewrite <- !app_assoc in *.
Qed.
(** The two exclusions are needed: in every such case the token ends elsewhere. *)
Theorem C33_string_end_exact : forall b r k r', r <> [] -> last b = Some c_bs ->
  ~ token ([c_dq] ++ b ++ [c_dq] ++ r) ([c_dq] ++ b ++ [c_dq]) k r'.
Proof. exact go_string_open. Qed.
Theorem C33_block_comment_end_exact : forall b r r', absent $"*/" b -> head b = Some "/"%char ->
  ~ token ($"/*" ++ b ++ $"*/" ++ r) ($"/*" ++ b ++ $"*/") KComment r'.
Proof. exact block_comment_slash. Qed.
(** "\\" is not closed by its last quote, /*/ is taken for a whole comment, and
    a quote in a rune literal opens a string. *)
Theorem C33_ends_refuted :
  map (fun t => snd (fst t)) (show ([c_dq; c_bs; c_bs; c_dq] ++ $" x")) = [[c_dq; c_bs; c_bs; c_dq] ++ $" x"] /\
  map (fun t => snd (fst t)) (show $"/*/ x */") = [$"/*/"; $" "; $"x"; $" "; $"*/"] /\
  map (fun t => snd (fst t)) (show ($"'" ++ [c_dq] ++ $"' x " ++ [c_dq])) = [$"'"; [c_dq] ++ $"' x " ++ [c_dq]].
Proof. vm_compute. split_and!; reflexivity. Qed.
Example ex_C33 : go_body ([c_bs; c_dq] ++ $"a") /\ last ([c_bs; c_dq] ++ $"a") <> Some c_bs /\
  map (fun t => snd (fst t)) (show ($"f" ++ [c_dq; c_bs; c_dq] ++ $"a" ++ [c_dq] ++ $"x")) = [$"f"; [c_dq; c_bs; c_dq] ++ $"a" ++ [c_dq]; $"x"].
Proof. split; [repeat constructor; discriminate|]. split; [discriminate|vm_compute; reflexivity]. Qed.
Example ex_C33_absent : absent $"*/" $"a*b/".
Proof. intros b1 b2 E. do 5 (destruct b1 as [|? b1]; [discriminate E|]; try discriminate E; injection E as _ E). Qed.
