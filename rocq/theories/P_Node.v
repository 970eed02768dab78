(** C01-C14: the Node API.  Statements only use the model of node.go
    ([Node.v]) and the vocabulary of [SpecNode.v] and [SpecHist.v]. *)
From Verif Require Import NodeFinal.

(** A concrete state used to show that hypotheses can be met: the chains
    a-b-c (nodes 0,1,2) and x-y (nodes 3,4). *)
Definition ex_ops : list op :=
  [ONewNodes 0 [$"a"; $"b"; $"c"]; ONewNodes 0 [$"x"; $"y"]].
Definition ex_heap : heap :=
  fst (new_nodes (fst (new_nodes [] 0 [$"a"; $"b"; $"c"])) 0 [$"x"; $"y"]).
Ltac chain_ex := vm_compute; repeat split; lia.
Example ex_chain1 : chain ex_heap [0; 1; 2]. Proof. chain_ex. Qed.
Example ex_chain2 : chain ex_heap [3; 4]. Proof. chain_ex. Qed.
Example ex_hist : hist [] ex_ops ex_heap.
Proof.
  eapply hist_cons; [constructor|vm_compute; reflexivity|].
  eapply hist_cons; [constructor|vm_compute; reflexivity|]. constructor.
Qed.

(** ** C01 *)
Theorem C01_link_symmetry : forall ops h, hist [] ops h ->
  (forall a b, next_of h (Some a) = Some b <-> prev_of h (Some b) = Some a) /\
  (forall a, next_of h (Some a) <> Some a) /\
  (forall a, prev_of h (Some a) <> Some a) /\
  (forall a b, next_of h (Some a) = Some b -> valid h b) /\
  (forall a b, prev_of h (Some a) = Some b -> valid h b).
Proof.
  intros ops h H. destruct (hist_wf [] ops h wf_nil H) as [[S I N P] _].
  split_and!; auto. intros a E. apply S in E. by apply I in E.
Qed.
(** The invariant used as hypothesis below is the one of C01. *)
Theorem C01_reachable_wf : forall ops h, hist [] ops h -> wf h.
Proof. intros ops h H. by apply (hist_wf [] ops h wf_nil H). Qed.
Example ex_wf : wf ex_heap.
Proof. exact (C01_reachable_wf _ _ ex_hist). Qed.
(** One call from any well-formed state. *)
Theorem C01_step : forall h o h' rs, wf h -> legal h o -> exec h o = Ok (h', rs) -> wf h'.
Proof. intros h o h' rs W L E. by apply (exec_wf h o h' rs). Qed.

(** ** C02 *)
Theorem C02_insert_next_other_chain : forall h n nn xs ys us vs, wf h ->
  chain h (xs ++ n :: ys) -> chain h (us ++ nn :: vs) -> n ∉ us ++ nn :: vs ->
  let '(h', r) := insert_next h (Some n) (Some nn) in
  chain h' (xs ++ n :: nn :: ys) /\ chain h' us /\ chain h' vs /\ r = (last us, head vs) /\
  (forall zs, chain h zs -> n ∉ zs -> nn ∉ zs -> chain h' zs).
Proof. intros h n nn xs ys us vs W. exact (insert_next_cross h W n nn xs ys us vs). Qed.
Theorem C02_insert_prev_other_chain : forall h n nn xs ys us vs, wf h ->
  chain h (xs ++ n :: ys) -> chain h (us ++ nn :: vs) -> n ∉ us ++ nn :: vs ->
  let '(h', r) := insert_prev h (Some n) (Some nn) in
  chain h' (xs ++ nn :: n :: ys) /\ chain h' us /\ chain h' vs /\ r = (last us, head vs) /\
  (forall zs, chain h zs -> n ∉ zs -> nn ∉ zs -> chain h' zs).
Proof. intros h n nn xs ys us vs W. exact (insert_prev_cross h W n nn xs ys us vs). Qed.
(** Both nodes on the same chain: the donor is split there too. *)
Theorem C02_insert_next_from_before : forall h n nn us ws ys, wf h ->
  chain h (us ++ nn :: ws ++ n :: ys) ->
  let '(h', r) := insert_next h (Some n) (Some nn) in
  chain h' us /\ chain h' (ws ++ n :: nn :: ys) /\ r = (last us, head (ws ++ n :: ys)) /\
  (forall zs, chain h zs -> n ∉ zs -> nn ∉ zs -> chain h' zs).
Proof. intros h n nn us ws ys W. exact (insert_next_before h W n nn us ws ys). Qed.
Theorem C02_insert_next_from_after : forall h n nn xs ws vs, wf h -> ws <> [] ->
  chain h (xs ++ n :: ws ++ nn :: vs) ->
  let '(h', r) := insert_next h (Some n) (Some nn) in
  chain h' (xs ++ n :: nn :: ws) /\ chain h' vs /\ r = (last ws, head vs) /\
  (forall zs, chain h zs -> n ∉ zs -> nn ∉ zs -> chain h' zs).
Proof. intros h n nn xs ws vs W. exact (insert_next_after h W n nn xs ws vs). Qed.
Theorem C02_insert_prev_from_before : forall h n nn us ws ys, wf h -> ws <> [] ->
  chain h (us ++ nn :: ws ++ n :: ys) ->
  let '(h', r) := insert_prev h (Some n) (Some nn) in
  chain h' us /\ chain h' (ws ++ nn :: n :: ys) /\ r = (last us, head ws) /\
  (forall zs, chain h zs -> n ∉ zs -> nn ∉ zs -> chain h' zs).
Proof. intros h n nn us ws ys W. exact (insert_prev_before h W n nn us ws ys). Qed.
Theorem C02_insert_prev_from_after : forall h n nn xs ws vs, wf h ->
  chain h (xs ++ n :: ws ++ nn :: vs) ->
  let '(h', r) := insert_prev h (Some n) (Some nn) in
  chain h' (xs ++ nn :: n :: ws) /\ chain h' vs /\ r = (last (n :: ws), head vs) /\
  (forall zs, chain h zs -> n ∉ zs -> nn ∉ zs -> chain h' zs).
Proof. intros h n nn xs ws vs W. exact (insert_prev_after h W n nn xs ws vs). Qed.
Theorem C02_insert_noop : forall h n nn,
  (n = nn \/ next_of h n = nn -> insert_next h n nn = (h, (None, None))) /\
  (n = nn \/ prev_of h n = nn -> insert_prev h n nn = (h, (None, None))).
Proof. split; [apply insert_next_noop|apply insert_prev_noop]. Qed.
Example C02_ex : chain (fst (insert_next ex_heap (Some 1) (Some 3))) [0; 1; 3; 2] /\
                 chain (fst (insert_next ex_heap (Some 1) (Some 3))) [4].
Proof.
  pose proof (C02_insert_next_other_chain ex_heap 1 3 [0] [2] [] [4] ex_wf ex_chain1 ex_chain2) as H.
  destruct (insert_next ex_heap (Some 1) (Some 3)) as [h' r]. destruct H as (H1 & _ & H3 & _); [set_solver|done].
Qed.

(** ** C03 *)
Theorem C03_replace_next : forall h n nn xs ys us vs, wf h ->
  chain h (xs ++ n :: ys) -> chain h (us ++ nn :: vs) -> n ∉ us ++ nn :: vs ->
  let '(h', r) := replace_next h (Some n) (Some nn) in
  chain h' (xs ++ n :: nn :: vs) /\ chain h' us /\ chain h' ys /\ r = (last us, head ys) /\
  (forall zs, chain h zs -> n ∉ zs -> nn ∉ zs -> chain h' zs).
Proof. intros h n nn xs ys us vs W. exact (replace_next_cross h W n nn xs ys us vs). Qed.
Theorem C03_replace_prev : forall h n nn xs ys us vs, wf h ->
  chain h (xs ++ n :: ys) -> chain h (us ++ nn :: vs) -> n ∉ us ++ nn :: vs ->
  let '(h', r) := replace_prev h (Some n) (Some nn) in
  chain h' (us ++ nn :: n :: ys) /\ chain h' xs /\ chain h' vs /\ r = (last xs, head vs) /\
  (forall zs, chain h zs -> n ∉ zs -> nn ∉ zs -> chain h' zs).
Proof. intros h n nn xs ys us vs W. exact (replace_prev_cross h W n nn xs ys us vs). Qed.
(** On one chain, with [nn] after [n]: the nodes between are cut out. *)
Theorem C03_replace_next_same_chain : forall h n nn xs ws vs, wf h -> ws <> [] ->
  chain h (xs ++ n :: ws ++ nn :: vs) ->
  let '(h', r) := replace_next h (Some n) (Some nn) in
  chain h' (xs ++ n :: nn :: vs) /\ chain h' ws /\ r = (last ws, head ws) /\
  (forall zs, chain h zs -> n ∉ zs -> nn ∉ zs -> chain h' zs).
Proof. intros h n nn xs ws vs W. exact (replace_next_after h W n nn xs ws vs). Qed.
Theorem C03_replace_prev_same_chain : forall h n nn us ws ys, wf h -> ws <> [] ->
  chain h (us ++ nn :: ws ++ n :: ys) ->
  let '(h', r) := replace_prev h (Some n) (Some nn) in
  chain h' (us ++ nn :: n :: ys) /\ chain h' ws /\ r = (last ws, head ws) /\
  (forall zs, chain h zs -> n ∉ zs -> nn ∉ zs -> chain h' zs).
Proof. intros h n nn us ws ys W. exact (replace_prev_before h W n nn us ws ys). Qed.
Theorem C03_replace_noop : forall h n nn,
  (n = nn \/ next_of h n = nn -> replace_next h n nn = (h, (None, None))) /\
  (n = nn \/ prev_of h n = nn -> replace_prev h n nn = (h, (None, None))).
Proof. split; [apply replace_next_noop|apply replace_prev_noop]. Qed.
Example C03_ex : chain (fst (replace_next ex_heap (Some 0) (Some 4))) [0; 4] /\
                 chain (fst (replace_next ex_heap (Some 0) (Some 4))) [1; 2].
Proof.
  pose proof (C03_replace_next ex_heap 0 4 [] [1; 2] [3] [] ex_wf ex_chain1 ex_chain2) as H.
  destruct (replace_next ex_heap (Some 0) (Some 4)) as [h' r]. destruct H as (H1 & _ & H3 & _); [set_solver|done].
Qed.

(** ** C04 *)
Theorem C04_take_next : forall h n m xs ys, wf h -> chain h (xs ++ n :: m :: ys) ->
  let '(h', r) := take_next h (Some n) in
  chain h' (xs ++ n :: ys) /\ chain h' [m] /\ r = Some m /\
  (forall zs, chain h zs -> n ∉ zs -> m ∉ zs -> chain h' zs).
Proof. intros h n m xs ys W. exact (take_next_chain h W n m xs ys). Qed.
Theorem C04_take_prev : forall h n m xs ys, wf h -> chain h (xs ++ m :: n :: ys) ->
  let '(h', r) := take_prev h (Some n) in
  chain h' (xs ++ n :: ys) /\ chain h' [m] /\ r = Some m /\
  (forall zs, chain h zs -> n ∉ zs -> m ∉ zs -> chain h' zs).
Proof. intros h n m xs ys W. exact (take_prev_chain h W n m xs ys). Qed.
Theorem C04_take_nothing : forall h n, wf h -> valid h n ->
  (next_of h (Some n) = None ->
     snd (take_next h (Some n)) = None /\ forall x, same_links h (fst (take_next h (Some n))) x) /\
  (prev_of h (Some n) = None ->
     snd (take_prev h (Some n)) = None /\ forall x, same_links h (fst (take_prev h (Some n))) x).
Proof. intros h n W V. split; [by apply take_next_none|by apply take_prev_none]. Qed.
Example C04_ex : chain (fst (take_next ex_heap (Some 0))) [0; 2].
Proof.
  pose proof (C04_take_next ex_heap 0 1 [] [2] ex_wf ex_chain1) as H.
  destruct (take_next ex_heap (Some 0)). by destruct H.
Qed.

(** ** C05 *)
Theorem C05_remove_next : forall h n xs ys, wf h -> chain h (xs ++ n :: ys) ->
  let '(h', r) := remove_next h (Some n) in
  chain h' (xs ++ [n]) /\ chain h' ys /\ r = head ys /\
  (forall zs, chain h zs -> n ∉ zs -> chain h' zs).
Proof. intros h n xs ys W. exact (remove_next_chain h W n xs ys). Qed.
Theorem C05_remove_prev : forall h n xs ys, wf h -> chain h (xs ++ n :: ys) ->
  let '(h', r) := remove_prev h (Some n) in
  chain h' xs /\ chain h' (n :: ys) /\ r = last xs /\
  (forall zs, chain h zs -> n ∉ zs -> chain h' zs).
Proof. intros h n xs ys W. exact (remove_prev_chain h W n xs ys). Qed.
Example C05_ex : chain (fst (remove_next ex_heap (Some 0))) [1; 2].
Proof.
  pose proof (C05_remove_next ex_heap 0 [] [1; 2] ex_wf ex_chain1) as H.
  destruct (remove_next ex_heap (Some 0)). by destruct H as (_ & H & _).
Qed.

(** ** C06 *)
Theorem C06_isolate : forall h n xs ys, wf h -> chain h (xs ++ n :: ys) ->
  let h' := isolate h (Some n) in
  chain h' xs /\ chain h' [n] /\ chain h' ys /\
  (forall zs, chain h zs -> n ∉ zs -> chain h' zs).
Proof. intros h n xs ys W. exact (isolate_chain h W n xs ys). Qed.
Example C06_ex : chain (isolate ex_heap (Some 1)) [2].
Proof. by destruct (C06_isolate ex_heap 1 [0] [2] ex_wf ex_chain1) as (_ & _ & H & _). Qed.

(** ** C07 *)
Theorem C07_payload : forall h n nn,
  same_payload h (fst (insert_next h n nn)) /\ same_payload h (fst (insert_prev h n nn)) /\
  same_payload h (fst (replace_next h n nn)) /\ same_payload h (fst (replace_prev h n nn)) /\
  same_payload h (fst (take_next h n)) /\ same_payload h (fst (take_prev h n)) /\
  same_payload h (fst (remove_next h n)) /\ same_payload h (fst (remove_prev h n)) /\
  same_payload h (isolate h n).
Proof.
  intros h n nn. split_and!; [apply same_payload_insert_next|apply same_payload_insert_prev|
    apply same_payload_replace_next|apply same_payload_replace_prev|apply same_payload_take_next|
    apply same_payload_take_prev|apply same_payload_remove_next|apply same_payload_remove_prev|
    apply same_payload_isolate].
Qed.
Theorem C07_links : forall h n nn x, wf h -> live h n -> live h nn -> ~ near h n x ->
  (~ near h nn x ->
     same_links h (fst (insert_next h n nn)) x /\ same_links h (fst (insert_prev h n nn)) x /\
     same_links h (fst (replace_next h n nn)) x /\ same_links h (fst (replace_prev h n nn)) x) /\
  (~ near h (next_of h n) x -> same_links h (fst (take_next h n)) x) /\
  (~ near h (prev_of h n) x -> same_links h (fst (take_prev h n)) x) /\
  same_links h (fst (remove_next h n)) x /\ same_links h (fst (remove_prev h n)) x /\
  same_links h (isolate h n) x.
Proof.
  intros h n nn x W L1 L2 H1. split_and!; intros; try split_and!;
  first [by apply near_insert_next|by apply near_insert_prev|by apply near_replace_next|by apply near_replace_prev|
         by apply near_take_next|by apply near_take_prev|by apply near_remove_next|by apply near_remove_prev|by apply near_isolate].
Qed.
Example C07_ex : wf ex_heap /\ live ex_heap (Some 0) /\ ~ near ex_heap (Some 0) 2 /\ ~ near ex_heap (Some 3) 2.
Proof. split_and!; [apply ex_wf|vm_compute; lia|..]; vm_compute; intuition congruence. Qed.

(** ** C08 *)
(** No history without Replace* ever makes a cycle. *)
Theorem C08_histories : forall ops h, hist [] ops h ->
  Forall (fun o => match o with OReplaceNext _ _ | OReplacePrev _ _ => False | _ => True end) ops ->
  acyclic h.
Proof.
  intros ops h H F. apply (hist_acyclic [] ops h wf_nil); [|exact F|exact H].
  intros a T. inversion T; subst; discriminate.
Qed.
(** Replace* keeps the links acyclic, except in exactly one case. *)
Theorem C08_replace_next : forall h n nn, wf h -> acyclic h -> valid h n -> valid h nn ->
  (acyclic (fst (replace_next h (Some n) (Some nn))) <-> ~ tc (nxt h) nn n).
Proof. intros h n nn W A. exact (acyclic_replace_next h W A n nn). Qed.
Theorem C08_replace_prev : forall h n nn, wf h -> acyclic h -> valid h n -> valid h nn ->
  (acyclic (fst (replace_prev h (Some n) (Some nn))) <-> ~ tc (nxt h) n nn).
Proof. intros h n nn W A. exact (acyclic_replace_prev h W A n nn). Qed.
(** Every call from an acyclic state, Replace* with that one exception. *)
Theorem C08_step : forall h o h' rs, wf h -> acyclic h -> legal h o -> exec h o = Ok (h', rs) ->
  match o with
  | OReplaceNext (Some n) (Some nn) => ~ tc (nxt h) nn n
  | OReplacePrev (Some n) (Some nn) => ~ tc (nxt h) n nn
  | _ => True
  end -> acyclic h'.
Proof. intros h o h' rs W A L E S. exact (exec_acyclic h o h' rs W A L S E). Qed.
(** In an acyclic state every node is on a finite chain, so the theorems about
    chains cover every node. *)
Theorem C08_every_node_on_a_chain : forall h l, wf h -> acyclic h -> valid h l ->
  exists xs ys, chain h (xs ++ l :: ys).
Proof. exact acyclic_chain. Qed.
Example C08_ex : acyclic ex_heap /\ ~ acyclic (fst (replace_next ex_heap (Some 1) (Some 0))).
Proof.
  assert (A : acyclic ex_heap) by (apply (C08_histories _ _ ex_hist); by repeat constructor).
  split; [exact A|]. intros B. revert B. rewrite C08_replace_next by (first [apply ex_wf|exact A|vm_compute; lia]).
  intros B. apply B. apply tc_once. by vm_compute.
Qed.

(** ** C09 *)
(** [fn] is any callback, [hp s] the nodes in its state [s]; the only
    requirement is that it leaves the Next (Prev) links alone. *)
Theorem C09_iter_next : forall S (hp : S -> heap) h fn (ls : list loc) p fuel (s : S),
  (forall l s s' b, (forall x, next_of (hp s) (Some x) = next_of h (Some x)) -> fn l s = Ok (s', b) ->
     forall x, next_of (hp s') (Some x) = next_of h (Some x)) ->
  (forall x, next_of (hp s) (Some x) = next_of h (Some x)) ->
  seg h p ls None -> length ls < fuel ->
  iter_next hp fuel (head ls) fn s = iter_spec fn ls s.
Proof.
  intros S hp h fn ls p fuel s H1 H2 C F. eapply iter_next_spec; [exact H1|exact H2| |exact F].
  replace (head ls) with (hd_ptr ls None) by (by destruct ls). by eapply seg_nseg.
Qed.
Theorem C09_iter_prev : forall S (hp : S -> heap) h fn (ls : list loc) q fuel (s : S),
  (forall l s s' b, (forall x, prev_of (hp s) (Some x) = prev_of h (Some x)) -> fn l s = Ok (s', b) ->
     forall x, prev_of (hp s') (Some x) = prev_of h (Some x)) ->
  (forall x, prev_of (hp s) (Some x) = prev_of h (Some x)) ->
  seg h None ls q -> length ls < fuel ->
  iter_prev hp fuel (last ls) fn s = iter_spec fn (reverse ls) s.
Proof.
  intros S hp h fn ls q fuel s H1 H2 C F. eapply iter_prev_spec; [exact H1|exact H2| |by rewrite reverse_length].
  replace (last ls) with (last_ptr ls None) by (unfold last_ptr; by destruct (last ls)). by eapply seg_pseg.
Qed.
Theorem C09_first_last : forall h xs l ys, chain h (xs ++ l :: ys) ->
  first_of h (Some l) = Ok (head (xs ++ [l])) /\ last_of h (Some l) = Ok (last (l :: ys)).
Proof. intros h xs l ys C. split; [by eapply first_of_chain|by eapply last_of_seg]. Qed.
Theorem C09_nil : forall S (hp : S -> heap) fuel fn (s : S),
  iter_next hp fuel None fn s = Ok (s, None) /\ iter_prev hp fuel None fn s = Ok (s, None).
Proof. intros. destruct fuel; done. Qed.
(** On a cycle the iteration never ends, whatever the fuel. *)
Theorem C09_cycle_diverges : forall S (hp : S -> heap) h fn l (s : S), tc (nxt h) l l ->
  hp s = h -> (forall x s, hp s = h -> exists s', fn x s = Ok (s', true) /\ hp s' = h) ->
  forall fuel, iter_next hp fuel (Some l) fn s = OutOfFuel.
Proof. intros S hp h fn l s T Hs Hf fuel. by eapply loop_diverges. Qed.
(** Counting callback stopped at "b". *)
Definition ex_count (l : loc) (s : heap * nat) : res ((heap * nat) * bool) :=
  Ok ((fst s, S (snd s)), negb (str_eqb (text_of (fst s) (Some l)) ($"b"))).
Example C09_ex : iter_next fst 4 (head [0; 1; 2]) ex_count (ex_heap, 0) = Ok ((ex_heap, 2), Some 1).
Proof.
  rewrite (C09_iter_next _ fst ex_heap ex_count [0; 1; 2] None 4 (ex_heap, 0)).
  - vm_compute. reflexivity.
  - intros l s s' b H E. injection E as <- <-. exact H.
  - done.
  - apply ex_chain1.
  - simpl. lia.
Qed.
Example C09_ex_cycle : let h := fst (replace_next ex_heap (Some 1) (Some 0)) in
  tc (nxt h) 0 0 /\ forall fuel, iter_next fst fuel (Some 0) (fun _ s => Ok (s, true)) (h, tt) = OutOfFuel.
Proof.
  intros h. assert (T : tc (nxt h) 0 0).
  { eapply tc_l; [|apply tc_once]; [instantiate (1 := 1)|]; by vm_compute. }
  split; [exact T|]. apply (C09_cycle_diverges _ fst h); [exact T|done|]. intros x s E. exists s. split; [reflexivity|exact E].
Qed.

(** ** C10 *)
Theorem C10_copy_chain : forall h l xs ys, chain h (xs ++ l :: ys) ->
  exists h' c xs' ys',
    copy h (Some l) true = Ok (h', Some c) /\
    h `prefix_of` h' /\ length h' = length h + length (xs ++ l :: ys) /\
    chain h' (xs' ++ c :: ys') /\
    (forall x, length h <= x < length h' <-> x ∈ xs' ++ c :: ys') /\
    Forall2 (fun a c => same_node h a h' c) xs xs' /\ same_node h l h' c /\
    Forall2 (fun a c => same_node h a h' c) ys ys'.
Proof.
  intros h l xs ys C. destruct (copy_spec h l xs ys C) as (h' & c & xs' & ys' & H).
  exists h', c, xs', ys'. tauto.
Qed.
(** Copy(true) returns only if the chain is finite (it recurses for ever on a
    cycle). *)
Theorem C10_copy_terminates_iff : forall h l, wf h -> valid h l ->
  ((exists r, copy h (Some l) true = Ok r) <-> exists xs ys, chain h (xs ++ l :: ys)).
Proof.
  intros h l W V. split.
  - intros [[h' r] E]. by eapply copy_inv.
  - intros (xs & ys & C). destruct (copy_spec h l xs ys C) as (h' & c & xs' & ys' & E & _). by eexists.
Qed.
Theorem C10_copy_single : forall h l, valid h l ->
  exists h', copy h (Some l) false = Ok (h', Some (length h)) /\ h `prefix_of` h' /\
    chain h' [length h] /\ length h' = S (length h) /\ same_node h l h' (length h).
Proof.
  intros h l V. eexists. split; [apply copy_one|]. destruct (cp_chain h l) as [C M].
  assert (E : (h ++ [cp h l None None]) !! length h = Some (cp h l None None)) by (by rewrite list_lookup_middle).
  split_and!; [by eexists|done|rewrite app_length; simpl; lia|..];
    unfold same_node, line_of, kind_of, text_of; by rewrite ! (field_lookup _ _ _ _ _ E).
Qed.
Theorem C10_copy_nil : forall h rel, copy h None rel = Ok (h, None).
Proof. done. Qed.
Example C10_ex : exists h', copy ex_heap (Some 1) true = Ok (h', Some 5) /\ chain h' [6; 5; 7] /\ text_of h' (Some 7) = $"c".
Proof. eexists. split; [vm_compute; reflexivity|]. split; [chain_ex|done]. Qed.

(** ** C11 *)
Theorem C11_copy_independent : forall h l h1 c, wf h -> valid h l -> copy h (Some l) true = Ok (h1, c) ->
  (forall h2 K, play h1 [c] h2 K -> forall x, valid h x -> h2 !! x = h !! x) /\
  (forall K0 h2 K, Forall (live h) K0 -> play h1 K0 h2 K ->
     forall x, length h <= x < length h1 -> h2 !! x = h1 !! x).
Proof. exact copy_independent. Qed.
Example C11_ex : exists h1, copy ex_heap (Some 1) true = Ok (h1, Some 5) /\
  exists h2 K, play h1 [Some 5] h2 K /\ text_of h2 (Some 7) = $"zz" /\ h2 <> h1.
Proof.
  eexists. split; [vm_compute; reflexivity|]. eexists. eexists. split.
  - eapply play_next; [left|]. eapply (play_call _ _ (OSetText (Some 7) ($"zz"))).
    + constructor; [right|constructor]. vm_compute. by left.
    + reflexivity.
    + apply play_stop.
  - split; [reflexivity|]. vm_compute. congruence.
Qed.

(** ** C12 *)
Theorem C12_combine_next : forall h l k nns, wf h -> valid h l -> Forall (live h) nns ->
  exists h', combine_next h (Some l) k nns = Ok (h', Some l) /\ wf h' /\ length h' = length h /\
    text_of h' (Some l) = text_of h (Some l) ++ concat (map (text_of h) (absorbed (Some l) nns)) /\
    kind_of h' (Some l) = k /\ line_of h' (Some l) = line_of h (Some l) /\
    (forall x, Some x ∈ absorbed (Some l) nns -> next_of h' (Some x) = None /\ prev_of h' (Some x) = None) /\
    (forall x, x <> l -> same_node h x h' x) /\
    (forall x, ~ (Some x ∈ absorbed (Some l) nns \/ next_of h (Some x) ∈ absorbed (Some l) nns) ->
       next_of h' (Some x) = next_of h (Some x)).
Proof.
  intros h l k nns W V F. destruct (combine_full false h l k nns W V F) as (h' & E & ? & ? & ? & ? & ? & ? & ? & G).
  exists h'. split_and!; try done. intros x Hx. rewrite G. by rewrite decide_False.
Qed.
Theorem C12_combine_prev : forall h l k nns, wf h -> valid h l -> Forall (live h) nns ->
  exists h', combine_prev h (Some l) k nns = Ok (h', Some l) /\ wf h' /\ length h' = length h /\
    text_of h' (Some l) = concat (rev (map (text_of h) (absorbed (Some l) nns))) ++ text_of h (Some l) /\
    kind_of h' (Some l) = k /\ line_of h' (Some l) = line_of h (Some l) /\
    (forall x, Some x ∈ absorbed (Some l) nns -> next_of h' (Some x) = None /\ prev_of h' (Some x) = None) /\
    (forall x, x <> l -> same_node h x h' x) /\
    (forall x, ~ (Some x ∈ absorbed (Some l) nns \/ next_of h (Some x) ∈ absorbed (Some l) nns) ->
       next_of h' (Some x) = next_of h (Some x)).
Proof.
  intros h l k nns W V F. destruct (combine_full true h l k nns W V F) as (h' & E & ? & ? & ? & ? & ? & ? & ? & G).
  exists h'. split_and!; try done. intros x Hx. rewrite G. by rewrite decide_False.
Qed.
(** Absorbing the nodes that follow [n] cuts the chain: what came after them is
    not attached to [n]. *)
Theorem C12_combine_next_run : forall h k xs n ms ys, wf h -> ms <> [] -> chain h (xs ++ n :: ms ++ ys) ->
  exists h', combine_next h (Some n) k (map Some ms) = Ok (h', Some n) /\
    chain h' (xs ++ [n]) /\ (forall m, m ∈ ms -> chain h' [m]) /\ chain h' ys /\
    (forall zs, chain h zs -> n ∉ zs -> (forall m, m ∈ ms -> m ∉ zs) -> chain h' zs) /\
    text_of h' (Some n) = text_of h (Some n) ++ concat (map (fun m => text_of h (Some m)) ms).
Proof. intros h k xs n ms ys. exact (combine_run false h k xs n ms ys). Qed.
(** A nil receiver is replaced by the first argument, whose kind is kept. *)
Theorem C12_combine_nil_receiver : forall rev_ h a k rest, wf h -> valid h a -> Forall (live h) rest ->
  exists h', combine rev_ h None k (Some a :: rest) = Ok (h', Some a) /\
    text_of h' (Some a) = combined rev_ (text_of h (Some a)) (map (text_of h) (absorbed (Some a) rest)) /\
    kind_of h' (Some a) = kind_of h (Some a) /\ line_of h' (Some a) = line_of h (Some a).
Proof.
  intros rev_ h a k rest W V F. unfold combine. change (set_kind h None k) with h. rewrite combine_loop_spec.
  set (ps := absorbed _ _). pose proof (same_payload_isolate_all h ps) as [SL SP].
  destruct (SP (Some a)) as (S1 & S2 & S3).
  assert (V' : valid (isolate_all h ps) a) by (unfold valid; by rewrite SL).
  eexists. split; [reflexivity|].
  match goal with |- context [alter (with_text ?t) a ?H] => change (alter (with_text t) a H) with (set_text H (Some a) t) end.
  rewrite text_set_text, kind_set_text, line_set_text by done. rewrite decide_True by done.
  split_and!; [|done|done]. unfold GoStr.join, combined. destruct rev_; [|done].
  cbn [app]. rewrite reverse_cons, concat_app. simpl. rewrite app_nil_r. unfold reverse. by rewrite rev_append_rev, app_nil_r.
Qed.
Example C12_ex : exists h', combine_next ex_heap (Some 0) KRaw [Some 1; None; Some 0; Some 4] = Ok (h', Some 0) /\
  text_of h' (Some 0) = $"aby" /\ chain h' [0] /\ chain h' [1] /\ chain h' [2] /\ chain h' [3] /\ chain h' [4].
Proof. eexists. split; [vm_compute; reflexivity|]. split; [done|]. split_and!; chain_ex. Qed.

(** ** C13 *)
(** The claim "no method panics on nil" is false for Combine*: *)
Theorem C13_no_panic_refuted : exists h o, exec h o = Panic.
Proof. exists [], (OCombineNext None KRaw [None]). done. Qed.
(** ... and true for every other call, in every state: *)
Theorem C13_panic_iff : forall h o, exec h o = Panic <->
  exists k rest, o = OCombinePrev None k (None :: rest) \/ o = OCombineNext None k (None :: rest).
Proof. exact exec_panic. Qed.
Theorem C13_all_nil_changes_nothing : forall h o h' rs, args o <> [] ->
  Forall (fun p => p = None) (args o) -> exec h o = Ok (h', rs) -> h' = h /\ Forall (fun p => p = None) rs.
Proof. exact exec_all_nil. Qed.
(** Readers on nil. *)
Theorem C13_readers : forall h, next_of h None = None /\ prev_of h None = None /\ line_of h None = (-2)%Z /\
  kind_of h None = KNone /\ text_of h None = [] /\ first_of h None = Ok None /\ last_of h None = Ok None /\
  description h None = $"<nil>".
Proof. done. Qed.
(** A nil argument to Insert*/Replace* acts like Remove*: *)
Theorem C13_nil_argument : forall h n x, wf h -> valid h n ->
  next_of (fst (insert_next h (Some n) None)) (Some x) = next_of (fst (remove_next h (Some n))) (Some x) /\
  prev_of (fst (insert_next h (Some n) None)) (Some x) = prev_of (fst (remove_next h (Some n))) (Some x) /\
  next_of (fst (replace_next h (Some n) None)) (Some x) = next_of (fst (remove_next h (Some n))) (Some x) /\
  prev_of (fst (replace_next h (Some n) None)) (Some x) = prev_of (fst (remove_next h (Some n))) (Some x) /\
  next_of (fst (insert_prev h (Some n) None)) (Some x) = next_of (fst (remove_prev h (Some n))) (Some x) /\
  prev_of (fst (insert_prev h (Some n) None)) (Some x) = prev_of (fst (remove_prev h (Some n))) (Some x) /\
  next_of (fst (replace_prev h (Some n) None)) (Some x) = next_of (fst (remove_prev h (Some n))) (Some x) /\
  prev_of (fst (replace_prev h (Some n) None)) (Some x) = prev_of (fst (remove_prev h (Some n))) (Some x).
Proof.
  intros h n x W V.
  destruct (insert_next_nil_arg_links h n W V) as [A1 A2], (replace_next_nil_arg_links h n W V) as [B1 B2],
    (insert_prev_nil_arg_links h n W V) as [C1 C2], (replace_prev_nil_arg_links h n W V) as [D1 D2],
    (remove_next_links h n W V) as [E1 E2], (remove_prev_links h n W V) as [F1 F2].
  rewrite A1, A2, B1, B2, C1, C2, D1, D2, E1, E2, F1, F2. done.
Qed.
(** A nil receiver of Insert* isolates the argument: *)
Theorem C13_nil_receiver : forall h nn x, wf h -> valid h nn ->
  same_links (isolate h (Some nn)) (fst (insert_next h None (Some nn))) x /\
  same_links (isolate h (Some nn)) (fst (insert_prev h None (Some nn))) x.
Proof.
  intros h n x W V.
  destruct (insert_next_nil_recv_links h n W V) as [A1 A2], (insert_prev_nil_recv_links h n W V) as [C1 C2],
    (isolate_links h n W V) as [E1 E2].
  unfold same_links. rewrite A1, A2, C1, C2, E1, E2. done.
Qed.
Example C13_ex : args (OInsertNext None None) <> [] /\ exec ex_heap (OInsertNext None None) = Ok (ex_heap, [None; None]).
Proof. done. Qed.

(** ** C14 *)
Theorem C14_new_nodes : forall h line t ts,
  let '(h', r) := new_nodes h line (t :: ts) in
  exists ls, r = head ls /\ h `prefix_of` h' /\ chain h' ls /\
    (forall x, length h <= x < length h' <-> x ∈ ls) /\
    map (fun l => text_of h' (Some l)) ls = t :: ts /\
    map (fun l => kind_of h' (Some l)) ls = map kind_new (t :: ts).
Proof.
  intros h line t ts. pose proof (new_nodes_spec h line t ts) as H. destruct (new_nodes h line (t :: ts)) as [h' r].
  destruct H as (ls & H1 & _ & H2 & H3 & H4 & H5 & H6 & _). exists ls. split_and!; auto.
Qed.
Theorem C14_new_nodes_none : forall h line, new_nodes h line [] = (h, None).
Proof. done. Qed.
(** The exact lines: newlines of all earlier texts except the first. *)
Theorem C14_new_nodes_lines : forall h line t ts,
  let '(h', r) := new_nodes h line (t :: ts) in
  exists ls, r = head ls /\ chain h' ls /\
    forall i l, ls !! i = Some l -> line_of h' (Some l) = (line + count_nl (concat (take (i - 1) ts)))%Z.
Proof.
  intros h line t ts. pose proof (new_nodes_spec h line t ts) as H. destruct (new_nodes h line (t :: ts)) as [h' r].
  destruct H as (ls & H1 & _ & H2 & H3 & H4 & H5 & H6 & H7). exists ls. split_and!; auto.
Qed.
(** So they are right if the first text has no newline ... *)
Theorem C14_new_nodes_lines_right : forall h line t ts, count_nl t = 0%Z ->
  let '(h', r) := new_nodes h line (t :: ts) in
  exists ls, r = head ls /\ chain h' ls /\
    forall i l, ls !! i = Some l -> line_of h' (Some l) = (line + count_nl (concat (take i (t :: ts))))%Z.
Proof.
  intros h line t ts Ht. pose proof (new_nodes_spec h line t ts) as H. destruct (new_nodes h line (t :: ts)) as [h' r].
  destruct H as (ls & H1 & _ & H2 & H3 & H4 & H5 & H6 & H7). exists ls. split_and!; auto.
  intros i l Hi. rewrite (H7 i l Hi). destruct i as [|i]; [done|]. simpl. rewrite Nat.sub_0_r.
  unfold count_nl in *. rewrite filter_app, app_length. lia.
Qed.
(** ... and wrong otherwise. *)
Theorem C14_new_nodes_lines_refuted : exists h line ts h' r l,
  new_nodes h line ts = (h', r) /\ next_of h' r = Some l /\
  line_of h' (Some l) <> (line + count_nl (concat (take 1 ts)))%Z.
Proof. exists [], 0%Z, [[c_nl]; $"a"]. do 2 eexists. exists 1. split; [vm_compute; reflexivity|]. split; [done|]. vm_compute. congruence. Qed.
Example C14_ex : count_nl ($"a") = 0%Z.
Proof. done. Qed.

Print Assumptions C01_link_symmetry.
Print Assumptions C02_insert_next_other_chain.
Print Assumptions C03_replace_next.
Print Assumptions C04_take_next.
Print Assumptions C05_remove_next.
Print Assumptions C06_isolate.
Print Assumptions C07_links.
Print Assumptions C08_histories.
Print Assumptions C08_replace_next.
Print Assumptions C09_iter_next.
Print Assumptions C09_cycle_diverges.
Print Assumptions C10_copy_chain.
Print Assumptions C11_copy_independent.
Print Assumptions C12_combine_next.
Print Assumptions C12_combine_next_run.
Print Assumptions C13_panic_iff.
Print Assumptions C14_new_nodes.
