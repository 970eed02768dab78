(** C61: iterating over a chain while the callback changes it. *)
From Verif Require Import SpecIter SpecHist NodeHist NodeFinal P_Node.

(** ** C61 *)
(** The callback may change anything at and before the node it is called on: as
    long as it leaves the way from there to the end of the chain, exactly the
    nodes of the chain are visited, in order. *)
Lemma loop_kept S (iter : S -> loc -> ptr) fn (ls : list loc) fuel (s : S) :
  (forall xs l ys s s' b, ls = xs ++ l :: ys -> leads (iter s) (l :: ys) -> fn l s = Ok (s', b) -> leads (iter s') (l :: ys)) ->
  leads (iter s) ls -> length ls < fuel ->
  loop fuel iter fn (head ls) s = iter_spec fn ls s.
Proof.
  intros H.
  assert (G : forall xs ys fuel s, ls = xs ++ ys -> leads (iter s) ys -> length ys < fuel -> loop fuel iter fn (head ys) s = iter_spec fn ys s);
    [|apply (G [] ls); done].
  clear fuel s. intros xs ys. revert xs. induction ys as [|l ys IH]; intros xs fuel s E P F; destruct fuel as [|f]; cbn [length] in F; try lia; [done|].
  cbn [head hd_error loop iter_spec]. destruct (fn l s) as [[s' b]| |] eqn:Ef; [|done|done]. destruct b; [|done].
  pose proof (H xs l ys s s' true E P Ef) as [-> P']. apply (IH (xs ++ [l])); [by rewrite <- app_assoc|done|lia].
Qed.
Theorem C61_next_kept : forall S (hp : S -> heap) fn (ls : list loc) fuel (s : S),
  (forall xs l ys s s' b, ls = xs ++ l :: ys -> leads (fun x => next_of (hp s) (Some x)) (l :: ys) -> fn l s = Ok (s', b) ->
     leads (fun x => next_of (hp s') (Some x)) (l :: ys)) ->
  leads (fun x => next_of (hp s) (Some x)) ls -> length ls < fuel ->
  iter_next hp fuel (head ls) fn s = iter_spec fn ls s.
Proof. intros S hp fn ls fuel s. exact (loop_kept S (fun s x => next_of (hp s) (Some x)) fn ls fuel s). Qed.
Theorem C61_prev_kept : forall S (hp : S -> heap) fn (ls : list loc) fuel (s : S),
  (forall xs l ys s s' b, ls = xs ++ l :: ys -> leads (fun x => prev_of (hp s) (Some x)) (l :: ys) -> fn l s = Ok (s', b) ->
     leads (fun x => prev_of (hp s') (Some x)) (l :: ys)) ->
  leads (fun x => prev_of (hp s) (Some x)) ls -> length ls < fuel ->
  iter_prev hp fuel (head ls) fn s = iter_spec fn ls s.
Proof. intros S hp fn ls fuel s. exact (loop_kept S (fun s x => prev_of (hp s) (Some x)) fn ls fuel s). Qed.

(** Taking out the previous node while walking. *)
Lemma stripped_cons u h l m r : stripped u h (l :: m :: r) = if u (kind_of h (Some l)) then stripped u h (m :: r) else l :: stripped u h (m :: r).
Proof. done. Qed.
Lemma stripped_in u h ls x : x ∈ stripped u h ls -> x ∈ ls.
Proof.
  induction ls as [|l [|m r] IH]; [done|done|]. rewrite stripped_cons. destruct (u _); intros H; [right; by apply IH|].
  apply elem_of_cons in H as [->|H]; [by left|right; by apply IH].
Qed.
Lemma stripped_payload u h h' ls : same_payload h h' -> stripped u h' ls = stripped u h ls.
Proof.
  intros [_ P]. induction ls as [|l [|m r] IH]; [done|done|]. rewrite !stripped_cons, IH. by rewrite (proj1 (proj2 (P (Some l)))).
Qed.
(** The loop, at node [l]: [ks] are the nodes kept so far, [pend] the node
    before [l] if it is to be taken out. *)
Definition drop_pend (pend : option loc) (h : heap) (l : loc) : heap := if bool_decide (is_Some pend) then fst (take_prev h (Some l)) else h.
Lemma drop_pend_spec pend h l ks ys : SpecNode.wf h -> chain h (ks ++ option_list pend ++ l :: ys) ->
  let h1 := drop_pend pend h l in
  SpecNode.wf h1 /\ same_payload h h1 /\ chain h1 (ks ++ l :: ys) /\ (forall m, pend = Some m -> chain h1 [m]) /\
  (forall zs, chain h zs -> (forall x, x ∈ option_list pend ++ [l] -> x ∉ zs) -> chain h1 zs).
Proof.
  intros W C. unfold drop_pend. destruct pend as [m|]; cbn [option_list option_rect app] in *.
  - rewrite bool_decide_eq_true_2 by done. pose proof (take_prev_chain h W l m ks ys C) as T. pose proof (same_payload_take_prev h (Some l)) as SP.
    assert (V : valid h l) by (eapply valid_chain; [exact C|apply elem_of_app; right; right; by left]).
    pose proof (wf_take_prev h (Some l) W V) as W'. destruct (take_prev h (Some l)) as [h1 r]. cbn [fst] in *. destruct T as (T1 & T2 & _ & T3).
    split; [done|]. split; [done|]. split; [done|]. split; [by intros ? [= <-]|]. intros zs Cz N. apply T3; [done|apply N; right; by left|apply N; by left].
  - rewrite bool_decide_eq_false_2 by (by intros [? ?]). split; [done|]. split; [apply same_payload_refl|]. done.
Qed.
Lemma strip_from u : forall ys l ks pend h fuel, SpecNode.wf h -> chain h (ks ++ option_list pend ++ l :: ys) -> length (l :: ys) < fuel ->
  exists h' fl, iter_next fst fuel (Some l) (strip u) (h, bool_decide (is_Some pend)) = Ok ((h', fl), None) /\
    SpecNode.wf h' /\ same_payload h h' /\ chain h' (ks ++ stripped u h (l :: ys)) /\
    (forall x, x ∈ option_list pend ++ l :: ys -> x ∉ stripped u h (l :: ys) -> chain h' [x]) /\
    (forall zs, chain h zs -> (forall x, x ∈ option_list pend ++ l :: ys -> x ∉ zs) -> chain h' zs).
Proof.
  induction ys as [|m ys IH]; intros l ks pend h fuel W C F; destruct fuel as [|fuel]; cbn [length] in F; try lia;
    destruct (drop_pend_spec pend h l ks _ W C) as (W1 & SP & C1 & Cm & Fr);
    unfold iter_next; cbn [loop]; unfold strip at 1; cbn [fst snd]; fold (drop_pend pend h l); set (h1 := drop_pend pend h l) in *;
    rewrite (chain_next h1 ks l _ C1); cbn [head hd_error].
  - eexists h1, _. split; [by destruct fuel|]. split; [done|]. split; [done|]. split; [done|]. split; [|exact Fr].
    intros x Hx Nx. apply elem_of_app in Hx as [Hx|Hx]; [|by destruct Nx]. destruct pend as [p|]; [|by apply elem_of_nil in Hx].
    apply elem_of_list_singleton in Hx as ->. by apply Cm.
  - rewrite stripped_cons. rewrite <- (proj1 (proj2 (proj2 SP (Some l)))). destruct (u (kind_of h1 (Some l))) eqn:Eu.
    + destruct (IH m ks (Some l) h1 fuel W1 C1 ltac:(cbn; lia)) as (h' & fl & E & W' & SP' & C' & D' & F').
      exists h', fl. split; [exact E|]. split; [done|]. split; [by eapply same_payload_trans|]. rewrite (stripped_payload u h h1) in * by done. split; [done|]. split.
      * intros x Hx Nx. apply elem_of_app in Hx as [Hx|Hx]; [|by apply D'].
        destruct pend as [p|]; [|by apply elem_of_nil in Hx]. apply elem_of_list_singleton in Hx as ->. apply F'; [by apply Cm|].
        intros x Hx Hp. apply elem_of_list_singleton in Hp as ->. pose proof (chain_NoDup _ _ C) as ND. apply NoDup_app in ND as (_ & _ & ND). cbn in ND. apply NoDup_cons in ND as [ND _]. by apply ND.
      * intros zs Cz N. apply F'; [apply Fr; [done|]|].
        -- intros x Hx. apply N. apply elem_of_app in Hx as [Hx|Hx]; apply elem_of_app; [by left|right]. apply elem_of_list_singleton in Hx as ->. by left.
        -- intros x Hx. apply N, elem_of_app. by right.
    + destruct (IH m (ks ++ [l]) None h1 fuel W1 ltac:(by rewrite <- app_assoc) ltac:(cbn; lia)) as (h' & fl & E & W' & SP' & C' & D' & F').
      exists h', fl. split; [exact E|]. split; [done|]. split; [by eapply same_payload_trans|]. rewrite (stripped_payload u h h1) in * by done. split; [by rewrite <- app_assoc in C'|]. split.
      * intros x Hx Nx. apply not_elem_of_cons in Nx as [Nl Nx]. apply elem_of_app in Hx as [Hx|Hx].
        -- destruct pend as [p|]; [|by apply elem_of_nil in Hx]. apply elem_of_list_singleton in Hx as ->. apply F'; [by apply Cm|].
           intros x Hx Hp. apply elem_of_list_singleton in Hp as ->. pose proof (chain_NoDup _ _ C) as ND. apply NoDup_app in ND as (_ & _ & ND). cbn in ND. apply NoDup_cons in ND as [ND _]. apply ND. by right.
        -- apply elem_of_cons in Hx as [->|Hx]; [done|]. by apply D'.
      * intros zs Cz N. apply F'; [apply Fr; [done|]|].
        -- intros x Hx. apply N. apply elem_of_app in Hx as [Hx|Hx]; apply elem_of_app; [by left|right]. apply elem_of_list_singleton in Hx as ->. by left.
        -- intros x Hx. apply N, elem_of_app. right. by right.
Qed.
Theorem C61_strip : forall unwanted h l ls fuel, SpecNode.wf h -> chain h (l :: ls) -> length (l :: ls) < fuel ->
  exists h' fl, iter_next fst fuel (Some l) (strip unwanted) (h, false) = Ok ((h', fl), None) /\
    SpecNode.wf h' /\ same_payload h h' /\ chain h' (stripped unwanted h (l :: ls)) /\
    (forall x, x ∈ l :: ls -> x ∉ stripped unwanted h (l :: ls) -> chain h' [x]) /\
    (forall zs, chain h zs -> (forall x, x ∈ l :: ls -> x ∉ zs) -> chain h' zs).
Proof. intros u h l ls fuel W C F. exact (strip_from u ls l [] None h fuel W C F). Qed.
(** If the first node goes, whoever holds it is left with that node alone, and the
    others with a chain that does not contain it. *)
Theorem C61_strip_first : forall unwanted h l m ls fuel, SpecNode.wf h -> chain h (l :: m :: ls) -> length (l :: m :: ls) < fuel ->
  unwanted (kind_of h (Some l)) = true ->
  exists h' fl, iter_next fst fuel (Some l) (strip unwanted) (h, false) = Ok ((h', fl), None) /\ chain h' [l].
Proof.
  intros u h l m ls fuel W C F U. destruct (C61_strip u h l (m :: ls) fuel W C F) as (h' & fl & E & _ & _ & _ & D & _).
  exists h', fl. split; [done|]. apply D; [by left|]. rewrite stripped_cons, U. intros Hl. apply stripped_in in Hl.
  apply chain_NoDup, NoDup_cons in C as [C _]. done.
Qed.

(** A node that the callback detaches from what follows is the last one visited. *)
Theorem C61_detached_ends : forall S (hp : S -> heap) fn l (s s' : S) fuel, fn l s = Ok (s', true) -> next_of (hp s') (Some l) = None ->
  iter_next hp (1 + fuel) (Some l) fn s = Ok (s', None).
Proof. intros S hp fn l s s' fuel E N. unfold iter_next. cbn [plus loop]. rewrite E, N. by destruct fuel. Qed.
(** So isolating every node of a chain that way isolates the first only. *)
Theorem C61_isolate_each : forall h l ls fuel, SpecNode.wf h -> chain h (l :: ls) ->
  iter_next (fun h => h) (1 + fuel) (Some l) (fun x h => Ok (isolate h (Some x), true)) h = Ok (isolate h (Some l), None) /\
  chain (isolate h (Some l)) ls.
Proof.
  intros h l ls fuel W C. destruct (isolate_chain h W l [] ls C) as (_ & C1 & C2 & _). split; [|done].
  apply (C61_detached_ends _ (fun h => h)); [done|]. by destruct C1 as (_ & _ & N & _).
Qed.
(** Inserting a new node after each visited one never ends. *)
Theorem C61_grow_diverges : forall line text h l fuel, SpecNode.wf h -> valid h l ->
  iter_next (fun h => h) fuel (Some l) (grow line text) h = OutOfFuel.
Proof.
  intros line text h l fuel. revert h l. induction fuel as [|fuel IH]; intros h l W V; [done|].
  unfold iter_next. cbn [loop]. unfold grow at 1.
  pose proof (wf_new_node h line text [] W) as W1.
  assert (E : exists h1 n, new_node h line text [] = (h1, n) /\ n = length h /\ length h1 = S (length h) /\ forall x, valid h x -> next_of h1 (Some x) = next_of h (Some x)).
  { eexists _, _. split; [reflexivity|]. split; [done|]. split; [cbn; rewrite app_length; cbn; lia|]. intros x Vx. unfold next_of, field. cbn [fst]. by rewrite lookup_app_l. }
  destruct E as (h1 & n & E & -> & L1 & N1). rewrite E in *. cbn [fst] in W1.
  assert (V1 : valid h1 l) by (unfold valid in *; lia). assert (Vn : valid h1 (length h)) by (unfold valid; lia).
  assert (Ne : l <> length h) by (unfold valid in V; lia).
  assert (Nn : next_of h1 (Some l) <> Some (length h)).
  { rewrite N1 by done. intros Q. apply (wf_next_valid h W) in Q. unfold valid in Q. lia. }
  pose proof (insert_next_links h1 l (length h) W1 V1 Vn Ne Nn) as K.
  assert (W2 : SpecNode.wf (fst (insert_next h1 (Some l) (Some (length h))))) by (by apply wf_insert_next).
  assert (L2 : length (fst (insert_next h1 (Some l) (Some (length h)))) = length h1) by apply same_payload_insert_next.
  cbn beta zeta iota. set (h2 := fst (insert_next h1 (Some l) (Some (length h)))) in *.
  destruct K as [K _]. rewrite (K l). rewrite decide_True by done. apply (IH h2 (length h) W2). unfold valid. lia.
Qed.
(** Stripping the blanks of four nodes. *)
Definition ex_strip : heap := fst (new_nodes [] 0 [$"a"; $" "; $"b"; $" "]).
Example C61_ex : stripped (fun k => bool_decide (k = KSpace)) ex_strip [0; 1; 2; 3] = [0; 2; 3] /\ chain ex_strip [0; 1; 2; 3].
Proof. split; [vm_compute; reflexivity|vm_compute; repeat split; lia]. Qed.
Example C61_ex_run : match iter_next fst 5 (Some 0) (strip (fun k => bool_decide (k = KSpace))) (ex_strip, false) with
  | Ok ((h, _), None) => map (fun l => next_of h (Some l)) [0; 1; 2; 3] = [Some 2; None; Some 3; None] | _ => False end.
Proof. vm_compute. reflexivity. Qed.
(** A callback that changes the chain behind it keeps the way forward: [strip]. *)
Example C61_ex_kept : leads (fun x => next_of (fst (ex_strip, false)) (Some x)) [0; 1; 2; 3].
Proof. vm_compute. repeat split. Qed.
