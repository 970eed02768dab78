(** C66: the Node API as a game on rows of cards. *)
From Verif Require Import SpecBoard Board NodeProofs NodeInv NodeChain NodeHist NodeAcyc NodeOps NodeOps2 NodeFinal P_Node Ast SpecAst P_Ast.

(** ** C66 *)
(** Every state without circles is shown by a board ... *)
Theorem C66_shown : forall h, SpecNode.wf h -> acyclic h -> exists b, shows h b.
Proof. exact acyclic_board. Qed.
Theorem C66_shown_only : forall h b, shows h b -> acyclic h.
Proof.
  intros h b D a Tc. destruct (decide (a < length h)) as [V|NV].
  - destruct b as [R T]. destruct (on_board h R T a D V) as (xs & ys & Q & E). pose proof (shows_chain _ _ _ _ _ D E) as C.
    eapply (nseg_no_cycle h _ (xs ++ a :: ys) a); [eapply seg_nseg, C|apply elem_of_mid|exact Tc].
  - destruct D as (W & _). assert (N : exists b, next_of h (Some a) = Some b) by (inversion Tc; eauto). destruct N as [b' N].
    apply NV. apply (wf_sym h W) in N. by apply (wf_prev_valid h W) in N.
Qed.
(** ... and by one only, up to the order of rows, and empty rows. *)
Theorem C66_unique : forall h b1 b2, shows h b1 -> shows h b2 -> cards b1 = cards b2 /\ forall r, r <> [] -> (r ∈ rows b1 <-> r ∈ rows b2).
Proof.
  assert (G : forall h b1 b2, shows h b1 -> shows h b2 -> forall r, r <> [] -> r ∈ rows b1 -> r ∈ rows b2).
  { intros h b1 b2 D1 D2 r Nr Hr. destruct r as [|x r]; [done|]. pose proof D1 as (_ & _ & F & _). rewrite Forall_forall in F. pose proof (F _ Hr) as C.
    destruct D2 as (_ & _ & F2 & P2). assert (I : x ∈ concat (rows b2)). { rewrite P2. apply elem_of_seq. assert (V : valid h x) by (eapply valid_chain; [exact C|by left]). unfold valid in V. lia. }
    apply elem_of_list_In, in_concat in I as (s & Hs & Hx). apply elem_of_list_In in Hs, Hx. rewrite Forall_forall in F2.
    rewrite (chain_unique h (x :: r) s x C (F2 s Hs)); [done|by left|done]. }
  intros h b1 b2 D1 D2. split; [|intros r Nr; split; by apply (G h)]. destruct D1 as (_ & -> & _), D2 as (_ & -> & _). done.
Qed.
(** What can be read off it. *)
Theorem C66_reads : forall h b xs n ys Q, shows h b -> rows b ≡ₚ (xs ++ n :: ys) :: Q ->
  next_of h (Some n) = head ys /\ prev_of h (Some n) = last xs /\
  first_of h (Some n) = Ok (head (xs ++ [n])) /\ last_of h (Some n) = Ok (last (n :: ys)) /\
  cards b !! n = Some (line_of h (Some n), text_of h (Some n), kind_of h (Some n)).
Proof.
  intros h [R T] xs n ys Q D E. cbn [rows cards] in *. pose proof (shows_chain _ _ _ _ _ D E) as C. split; [by eapply head_next|]. split; [by eapply last_prev|].
  destruct (C09_first_last h xs n ys C) as [F1 F2]. split; [done|]. split; [done|]. destruct D as (_ & Ct & _). cbn [cards] in Ct. rewrite Ct.
  rewrite (list_lookup_fmap (pay h)), lookup_seq_lt; [done|]. apply (valid_chain h _ n C (elem_of_mid _ _ _)).
Qed.
(** Every call that returns, and does not close a circle, makes a step. *)
Theorem C66_call : forall h b o h' rs, shows h b -> legal h o -> ~ closes h o -> exec h o = Ok (h', rs) ->
  exists b', step b o b' rs /\ shows h' b'.
Proof.
  intros h b o h' rs D L Cl E. destruct (allocates o) eqn:A.
  - destruct o as [| |[n|] [|]| | | | | | | | | | | | |]; try discriminate A. destruct b as [R T]. inversion_clear L as [|? ? L1 _].
    destruct (copy_step h R T n D L1) as (h2 & c & b' & E2 & X & D'). rewrite E in E2. injection E2 as -> ->. by exists b'.
  - destruct (step_total h b o D L A Cl) as (b' & rs' & X); [by rewrite E|]. destruct (step_sound h b o b' rs' D L A X) as (h2 & E2 & D'). rewrite E in E2. injection E2 as -> ->. by exists b'.
Qed.
(** And what the rules say about a call is what it does. *)
Theorem C66_rules : forall h b o b' rs, shows h b -> legal h o -> ~ copies o -> step b o b' rs ->
  exists h', exec h o = Ok (h', rs) /\ shows h' b'.
Proof.
  intros h b o b' rs D L N X. apply (step_sound h b o b' rs D L); [|done]. destruct o as [| |[n|] [|]| | | | | | | | | | | | |]; try done. exfalso. apply N. by exists n.
Qed.
(** For a copy the rules leave only the names of the new nodes open. *)
Theorem C66_rules_copy : forall h b n b' rs, shows h b -> step b (OCopy (Some n) true) b' rs ->
  exists h' c b2, exec h (OCopy (Some n) true) = Ok (h', [Some c]) /\ step b (OCopy (Some n) true) b2 [Some c] /\ shows h' b2.
Proof.
  intros h [R T] n b' rs D X. apply copy_step; [done|]. inversion X as [| | | | |? ? ? xs ys Q ? ? ? ? E| | | | | | | | | | | | | | | | | | | | | | | | | | | | | | | | | | | | | | | | | | | | | | | |]; subst.
  exact (valid_chain h _ n (shows_chain _ _ _ _ _ D E) (elem_of_mid _ _ _)).
Qed.
(** Any number of calls, starting without nodes. *)
Theorem C66_histories : forall ops h, open_hist [] ops h -> exists b, game (Board [] []) ops b /\ shows h b.
Proof.
  assert (G : forall h ops h', open_hist h ops h' -> forall b, shows h b -> exists b', game b ops b' /\ shows h' b').
  { induction 1 as [h|h o h1 rs ops h2 L Cl E H IH]; intros b D; [exists b; split; [constructor|done]|].
    destruct (C66_call h b o h1 rs D L Cl E) as (b1 & X & D1). destruct (IH b1 D1) as (b2 & X2 & D2). exists b2. split; [by econstructor|done]. }
  intros ops h H. apply (G [] ops h H). split; [apply wf_nil|]. cbn [rows cards]. split; [done|]. split; [constructor|done].
Qed.
Theorem C66_histories_no_replace : forall ops h, hist [] ops h ->
  Forall (fun o => match o with OReplaceNext _ _ | OReplacePrev _ _ => False | _ => True end) ops ->
  exists b, game (Board [] []) ops b /\ shows h b.
Proof.
  intros ops h H F. apply C66_histories. induction H as [h|h o h1 rs ops h2 L E H IH]; [constructor|]. inversion_clear F as [|? ? F1 F2].
  econstructor; [exact L|intros Hc; by destruct o|exact E|by apply IH].
Qed.
(** Save writes, for each scope, the texts on the cards from its node to the end of
    the row. *)
Theorem C66_save : forall h b (scs : list scope) (lss : list (list loc)), shows h b ->
  Forall2 (fun sc ls => exists xs, sc_node sc = head ls /\ ls <> [] /\ xs ++ ls ∈ rows b) scs lss ->
  save_text h (map Some scs) = Ok (concat (map (fun ls => concat (map (card_text (cards b)) ls)) lss)).
Proof.
  intros h [R T] scs lss D F. cbn [rows cards] in *. rewrite (save_text_spec h (map Some scs) lss).
  - f_equal. f_equal. apply map_ext_in. intros ls Hls. unfold text_at. f_equal. apply map_ext_in. intros x Hx. symmetry. apply (shows_card_text h R); [done|].
    apply elem_of_list_In, elem_of_list_lookup in Hls as (i & Hi). destruct (Forall2_lookup_r _ _ _ _ _ F Hi) as (sc & _ & xs & _ & _ & Hr).
    destruct D as (_ & _ & Fr & _). cbn [rows] in Fr. rewrite Forall_forall in Fr. eapply valid_chain; [by apply Fr|]. apply elem_of_app. right. by apply elem_of_list_In.
  - unfold all_nodes. clear -F D. induction F as [|sc ls scs lss (xs & E & Ne & Hr) _ IH]; [constructor|]. cbn [map]. constructor; [|exact IH].
    exists sc. split; [done|]. split; [done|]. exists xs. destruct D as (_ & _ & Fr & _). cbn [rows] in Fr. rewrite Forall_forall in Fr. by apply Fr.
Qed.
Example ex_C66_shows : shows ex_heap (Board [[0; 1; 2]; [3; 4]] (map (pay ex_heap) (seq 0 5))).
Proof.
  split; [apply ex_wf|]. cbn [rows cards]. split; [done|]. split; [|done].
  apply Forall_cons_2; [apply ex_chain1|]. apply Forall_cons_2; [apply ex_chain2|]. apply Forall_nil_2.
Qed.
Example ex_C66 : exists h', exec ex_heap (OInsertNext (Some 1) (Some 3)) = Ok (h', [None; Some 4]) /\
  shows h' (Board [[0; 1; 3; 2]; []; [4]] (map (pay ex_heap) (seq 0 5))).
Proof.
  apply (C66_rules ex_heap _ _ _ _ ex_C66_shows).
  - repeat constructor; vm_compute; lia.
  - by intros [n ?].
  - exact (st_insert_next _ _ 1 3 [0] [2] [] [4] [] (Permutation_refl _)).
Qed.
Example ex_C66_combine : exists h', exec ex_heap (OCombineNext (Some 0) KFunc [Some 1; None; Some 0]) = Ok (h', [Some 0]) /\
  shows h' (Board [[0]; [1]; [2]; [3; 4]]
    [(0%Z, $"ab", KFunc); (0%Z, $"b", KRaw); (0%Z, $"c", KRaw); (0%Z, $"x", KRaw); (0%Z, $"y", KRaw)]).
Proof.
  apply (C66_rules ex_heap _ _ _ _ ex_C66_shows).
  - repeat constructor; vm_compute; lia.
  - by intros [n ?].
  - refine (st_combine_next [[0; 1; 2]; [3; 4]] (map (pay ex_heap) (seq 0 5)) 0 KFunc [Some 1; None; Some 0] [1] [[0]; [1]; [2]; [3; 4]] eq_refl _). eapply cuts_cons; [exact (cut_at _ [0] 1 [2] [[3; 4]] (Permutation_refl _))|constructor].
Qed.
