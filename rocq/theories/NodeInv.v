(** Well-formedness of links is preserved by every operation. *)
From Verif Require Export NodeProofs.

Lemma wf_next_ne h a b : wf h -> next_of h (Some a) = Some b -> a <> b.
Proof. intros W H ->. exact (wf_irrefl _ W _ H). Qed.

(** Forward saturation with symmetry. *)
Ltac sym_sat W :=
  repeat match goal with
  | H : next_of ?h (Some ?a) = Some ?b |- _ =>
    lazymatch goal with
    | _ : prev_of h (Some b) = Some a |- _ => fail
    | _ => pose proof (proj1 (wf_sym _ W a b) H)
    end
  | H : prev_of ?h (Some ?a) = Some ?b |- _ =>
    lazymatch goal with
    | _ : next_of h (Some b) = Some a |- _ => fail
    | _ => pose proof (proj2 (wf_sym _ W b a) H)
    end
  end.
Ltac irr_sat W :=
  repeat match goal with
  | H : next_of ?h (Some ?a) = Some ?b |- _ =>
    lazymatch goal with
    | _ : a <> b |- _ => fail
    | _ => pose proof (wf_next_ne _ _ _ W H)
    end
  end.

(** Split [decide]s in a hypothesis, saturating to prune. *)
Ltac split_in W H :=
  repeat match type of H with
  | context [decide (?a = ?b)] =>
    lazymatch a with context [decide _] => fail | _ => idtac end;
    destruct (decide (a = b)) as [?E|?E]; try (exfalso; congruence)
  end.

Ltac split_goal W :=
  repeat match goal with
  | |- context [decide (?a = ?b)] =>
    lazymatch a with context [decide _] => fail | _ => idtac end;
    destruct (decide (a = b)) as [?E|?E]; sym_sat W; try (exfalso; congruence); try congruence
  end.

Lemma wf_intro (h' : heap) :
  (forall a b, next_of h' (Some a) = Some b -> prev_of h' (Some b) = Some a) ->
  (forall a b, prev_of h' (Some b) = Some a -> next_of h' (Some a) = Some b) ->
  (forall a, next_of h' (Some a) <> Some a) -> wf h'.
Proof.
  intros A B I. split; auto.
  - intros a b; split; auto.
  - intros a b E. apply A in E. eapply prev_of_lt; eauto.
  - intros a b E. apply B in E. eapply next_of_lt; eauto.
Qed.

Ltac solve_wf W N P :=
  let a := fresh "a" in let b := fresh "b" in let E := fresh "E" in
  apply wf_intro;
  [ intros a b E; rewrite N in E; rewrite P; split_in W E; simplify_eq; sym_sat W; irr_sat W; split_goal W; congruence
  | intros a b E; rewrite P in E; rewrite N; split_in W E; simplify_eq; sym_sat W; irr_sat W; split_goal W; congruence
  | intros a E; rewrite N in E; split_in W E; simplify_eq; sym_sat W; irr_sat W; congruence ].

Definition links_only (h h' : heap) : Prop := wf h' /\ same_payload h h'.

Ltac sp := repeat first [ apply same_payload_refl
  | eapply same_payload_trans; [|apply same_payload_set_next]
  | eapply same_payload_trans; [|apply same_payload_set_prev] ].

Lemma same_payload_insert_next h n nn : same_payload h (fst (insert_next h n nn)).
Proof. unfold insert_next. destruct (_ || _); cbn [fst]; sp. Qed.
Lemma same_payload_insert_prev h n nn : same_payload h (fst (insert_prev h n nn)).
Proof. unfold insert_prev. destruct (_ || _); cbn [fst]; sp. Qed.
Lemma same_payload_replace_next h n nn : same_payload h (fst (replace_next h n nn)).
Proof. unfold replace_next. destruct (_ || _); cbn [fst]; sp. Qed.
Lemma same_payload_replace_prev h n nn : same_payload h (fst (replace_prev h n nn)).
Proof. unfold replace_prev. destruct (_ || _); cbn [fst]; sp. Qed.
Lemma same_payload_take_next h n : same_payload h (fst (take_next h n)).
Proof. unfold take_next. cbn [fst]; sp. Qed.
Lemma same_payload_take_prev h n : same_payload h (fst (take_prev h n)).
Proof. unfold take_prev. cbn [fst]; sp. Qed.
Lemma same_payload_remove_next h n : same_payload h (fst (remove_next h n)).
Proof. unfold remove_next. cbn [fst]; sp. Qed.
Lemma same_payload_remove_prev h n : same_payload h (fst (remove_prev h n)).
Proof. unfold remove_prev. cbn [fst]; sp. Qed.
Lemma same_payload_isolate h n : same_payload h (isolate h n).
Proof. unfold isolate. cbn [fst]; sp. Qed.

(** ** Operations with nil arguments *)
Lemma insert_next_nil_recv_links h nn : wf h -> valid h nn ->
  let h' := fst (insert_next h None (Some nn)) in
  (forall x, next_of h' (Some x) =
     if decide (x = nn) then None
     else if decide (next_of h (Some x) = Some nn) then None else next_of h (Some x)) /\
  (forall x, prev_of h' (Some x) =
     if decide (x = nn) then None
     else if decide (prev_of h (Some x) = Some nn) then None else prev_of h (Some x)).
Proof.
  intros W Hnn. pose proof (wf_okl _ W) as O. unfold insert_next.
  change (next_of h None) with (@None nat). rw_false.
  destruct (prev_of h (Some nn)) as [p|] eqn:Ep; destruct (next_of h (Some nn)) as [q|] eqn:Eq;
    wf_known W; do 6 peel1; finish_links W.
Qed.
Lemma insert_prev_nil_recv_links h nn : wf h -> valid h nn ->
  let h' := fst (insert_prev h None (Some nn)) in
  (forall x, next_of h' (Some x) =
     if decide (x = nn) then None
     else if decide (next_of h (Some x) = Some nn) then None else next_of h (Some x)) /\
  (forall x, prev_of h' (Some x) =
     if decide (x = nn) then None
     else if decide (prev_of h (Some x) = Some nn) then None else prev_of h (Some x)).
Proof.
  intros W Hnn. pose proof (wf_okl _ W) as O. unfold insert_prev.
  change (prev_of h None) with (@None nat). rw_false.
  destruct (prev_of h (Some nn)) as [p|] eqn:Ep; destruct (next_of h (Some nn)) as [q|] eqn:Eq;
    wf_known W; do 6 peel1; finish_links W.
Qed.

Lemma replace_next_nil_recv_links h nn : wf h -> valid h nn ->
  let h' := fst (replace_next h None (Some nn)) in
  (forall x, next_of h' (Some x) =
     if decide (next_of h (Some x) = Some nn) then None else next_of h (Some x)) /\
  (forall x, prev_of h' (Some x) = if decide (x = nn) then None else prev_of h (Some x)).
Proof.
  intros W Hnn. pose proof (wf_okl _ W) as O. unfold replace_next.
  change (next_of h None) with (@None nat). rw_false.
  destruct (prev_of h (Some nn)) as [p|] eqn:Ep;
    wf_known W; do 4 peel1; finish_links W.
Qed.
Lemma replace_prev_nil_recv_links h nn : wf h -> valid h nn ->
  let h' := fst (replace_prev h None (Some nn)) in
  (forall x, next_of h' (Some x) = if decide (x = nn) then None else next_of h (Some x)) /\
  (forall x, prev_of h' (Some x) =
     if decide (prev_of h (Some x) = Some nn) then None else prev_of h (Some x)).
Proof.
  intros W Hnn. pose proof (wf_okl _ W) as O. unfold replace_prev.
  change (prev_of h None) with (@None nat). rw_false.
  destruct (next_of h (Some nn)) as [p|] eqn:Ep;
    wf_known W; do 4 peel1; finish_links W.
Qed.

(** Inserting or replacing with nil cuts the chain next to [n]. *)
Lemma insert_next_nil_arg_links h n : wf h -> valid h n ->
  let h' := fst (insert_next h (Some n) None) in
  (forall x, next_of h' (Some x) = if decide (x = n) then None else next_of h (Some x)) /\
  (forall x, prev_of h' (Some x) =
     if decide (prev_of h (Some x) = Some n) then None else prev_of h (Some x)).
Proof.
  intros W Hn. pose proof (wf_okl _ W) as O. unfold insert_next.
  change (next_of h None) with (@None nat). change (prev_of h None) with (@None nat).
  destruct (next_of h (Some n)) as [c|] eqn:Ec; wf_known W.
  - rw_false. do 6 peel1; finish_links W.
  - cbn [orb ptr_eqb]. rewrite (proj2 (ptr_eqb_true None None) eq_refl), orb_true_r. cbn [fst].
    split; intros x; crush_links. sym_sat W. congruence.
Qed.
Lemma insert_prev_nil_arg_links h n : wf h -> valid h n ->
  let h' := fst (insert_prev h (Some n) None) in
  (forall x, next_of h' (Some x) =
     if decide (next_of h (Some x) = Some n) then None else next_of h (Some x)) /\
  (forall x, prev_of h' (Some x) = if decide (x = n) then None else prev_of h (Some x)).
Proof.
  intros W Hn. pose proof (wf_okl _ W) as O. unfold insert_prev.
  change (next_of h None) with (@None nat). change (prev_of h None) with (@None nat).
  destruct (prev_of h (Some n)) as [c|] eqn:Ec; wf_known W.
  - rw_false. do 6 peel1; finish_links W.
  - rewrite (proj2 (ptr_eqb_true None None) eq_refl), orb_true_r. cbn [fst].
    split; intros x; crush_links. sym_sat W. congruence.
Qed.
Lemma replace_next_nil_arg_links h n : wf h -> valid h n ->
  let h' := fst (replace_next h (Some n) None) in
  (forall x, next_of h' (Some x) = if decide (x = n) then None else next_of h (Some x)) /\
  (forall x, prev_of h' (Some x) =
     if decide (prev_of h (Some x) = Some n) then None else prev_of h (Some x)).
Proof.
  intros W Hn. pose proof (wf_okl _ W) as O. unfold replace_next.
  change (next_of h None) with (@None nat). change (prev_of h None) with (@None nat).
  destruct (next_of h (Some n)) as [c|] eqn:Ec; wf_known W.
  - rw_false. do 4 peel1; finish_links W.
  - rewrite (proj2 (ptr_eqb_true None None) eq_refl), orb_true_r. cbn [fst].
    split; intros x; crush_links. sym_sat W. congruence.
Qed.
Lemma replace_prev_nil_arg_links h n : wf h -> valid h n ->
  let h' := fst (replace_prev h (Some n) None) in
  (forall x, next_of h' (Some x) =
     if decide (next_of h (Some x) = Some n) then None else next_of h (Some x)) /\
  (forall x, prev_of h' (Some x) = if decide (x = n) then None else prev_of h (Some x)).
Proof.
  intros W Hn. pose proof (wf_okl _ W) as O. unfold replace_prev.
  change (next_of h None) with (@None nat). change (prev_of h None) with (@None nat).
  destruct (prev_of h (Some n)) as [c|] eqn:Ec; wf_known W.
  - rw_false. do 4 peel1; finish_links W.
  - rewrite (proj2 (ptr_eqb_true None None) eq_refl), orb_true_r. cbn [fst].
    split; intros x; crush_links. sym_sat W. congruence.
Qed.

Lemma take_next_none h n : wf h -> valid h n -> next_of h (Some n) = None ->
  snd (take_next h (Some n)) = None /\ forall x, same_links h (fst (take_next h (Some n))) x.
Proof.
  intros W Hn E. unfold take_next. rewrite E. change (next_of h None) with (@None nat).
  cbn [fst snd]. split; [done|]. rewrite set_prev_nil. rewrite set_next_nil.
  apply set_next_none_same; auto.
Qed.
Lemma set_prev_none_same h n : wf h -> valid h n -> prev_of h (Some n) = None ->
  forall x, same_links h (set_prev h (Some n) None) x.
Proof.
  intros W Hn E. pose proof (wf_okl _ W) as O. peel1. intros x. split; use_eqs; crush_links.
Qed.
Lemma take_prev_none h n : wf h -> valid h n -> prev_of h (Some n) = None ->
  snd (take_prev h (Some n)) = None /\ forall x, same_links h (fst (take_prev h (Some n))) x.
Proof.
  intros W Hn E. unfold take_prev. rewrite E. change (prev_of h None) with (@None nat).
  cbn [fst snd]. split; [done|]. rewrite set_prev_nil. rewrite !set_next_nil.
  apply set_prev_none_same; auto.
Qed.

(** ** Preservation *)
Lemma wf_same_links h h' : wf h -> length h' = length h -> (forall x, same_links h h' x) -> wf h'.
Proof.
  intros W L E. assert (N : forall x, next_of h' (Some x) = next_of h (Some x)) by apply E.
  assert (P : forall x, prev_of h' (Some x) = prev_of h (Some x)) by apply E.
  split.
  - intros a b. rewrite N, P. apply W.
  - intros a. rewrite N. apply W.
  - intros a b. rewrite N. unfold valid. rewrite L. apply W.
  - intros a b. rewrite P. unfold valid. rewrite L. apply W.
Qed.

Lemma ptr_cases (a b : ptr) : ptr_eqb a b = true /\ a = b \/ ptr_eqb a b = false /\ a <> b.
Proof. destruct (ptr_eqb a b) eqn:E; [left|right]; split; auto; [by apply ptr_eqb_true|by apply ptr_eqb_false]. Qed.

Lemma wf_insert_next h n nn : wf h -> live h n -> live h nn -> wf (fst (insert_next h n nn)).
Proof.
  intros W Hn Hnn.
  destruct n as [n|], nn as [nn|].
  - destruct (ptr_cases (Some n) (Some nn)) as [[E1 ?]|[E1 Hne]];
      [unfold insert_next; rewrite E1; exact W|].
    destruct (ptr_cases (next_of h (Some n)) (Some nn)) as [[E2 ?]|[E2 Hnx]];
      [unfold insert_next; rewrite E2, orb_true_r; exact W|].
    assert (Hne' : n <> nn) by congruence.
    destruct (insert_next_links h n nn W Hn Hnn Hne' Hnx) as [N P]. solve_wf W N P.
  - destruct (insert_next_nil_arg_links h n W Hn) as [N P]. solve_wf W N P.
  - destruct (insert_next_nil_recv_links h nn W Hnn) as [N P]. solve_wf W N P.
  - exact W.
Qed.
Lemma wf_insert_prev h n nn : wf h -> live h n -> live h nn -> wf (fst (insert_prev h n nn)).
Proof.
  intros W Hn Hnn.
  destruct n as [n|], nn as [nn|].
  - destruct (ptr_cases (Some n) (Some nn)) as [[E1 ?]|[E1 Hne]];
      [unfold insert_prev; rewrite E1; exact W|].
    destruct (ptr_cases (prev_of h (Some n)) (Some nn)) as [[E2 ?]|[E2 Hnx]];
      [unfold insert_prev; rewrite E2, orb_true_r; exact W|].
    assert (Hne' : n <> nn) by congruence.
    destruct (insert_prev_links h n nn W Hn Hnn Hne' Hnx) as [N P]. solve_wf W N P.
  - destruct (insert_prev_nil_arg_links h n W Hn) as [N P]. solve_wf W N P.
  - destruct (insert_prev_nil_recv_links h nn W Hnn) as [N P]. solve_wf W N P.
  - exact W.
Qed.
Lemma wf_replace_next h n nn : wf h -> live h n -> live h nn -> wf (fst (replace_next h n nn)).
Proof.
  intros W Hn Hnn.
  destruct n as [n|], nn as [nn|].
  - destruct (ptr_cases (Some n) (Some nn)) as [[E1 ?]|[E1 Hne]];
      [unfold replace_next; rewrite E1; exact W|].
    destruct (ptr_cases (next_of h (Some n)) (Some nn)) as [[E2 ?]|[E2 Hnx]];
      [unfold replace_next; rewrite E2, orb_true_r; exact W|].
    assert (Hne' : n <> nn) by congruence.
    destruct (replace_next_links h n nn W Hn Hnn Hne' Hnx) as [N P]. solve_wf W N P.
  - destruct (replace_next_nil_arg_links h n W Hn) as [N P]. solve_wf W N P.
  - destruct (replace_next_nil_recv_links h nn W Hnn) as [N P]. solve_wf W N P.
  - exact W.
Qed.
Lemma wf_replace_prev h n nn : wf h -> live h n -> live h nn -> wf (fst (replace_prev h n nn)).
Proof.
  intros W Hn Hnn.
  destruct n as [n|], nn as [nn|].
  - destruct (ptr_cases (Some n) (Some nn)) as [[E1 ?]|[E1 Hne]];
      [unfold replace_prev; rewrite E1; exact W|].
    destruct (ptr_cases (prev_of h (Some n)) (Some nn)) as [[E2 ?]|[E2 Hnx]];
      [unfold replace_prev; rewrite E2, orb_true_r; exact W|].
    assert (Hne' : n <> nn) by congruence.
    destruct (replace_prev_links h n nn W Hn Hnn Hne' Hnx) as [N P]. solve_wf W N P.
  - destruct (replace_prev_nil_arg_links h n W Hn) as [N P]. solve_wf W N P.
  - destruct (replace_prev_nil_recv_links h nn W Hnn) as [N P]. solve_wf W N P.
  - exact W.
Qed.
Lemma wf_take_next h n : wf h -> live h n -> wf (fst (take_next h n)).
Proof.
  intros W Hn. destruct n as [n|]; [|exact W].
  destruct (next_of h (Some n)) as [m|] eqn:E.
  - destruct (take_next_links h n m W Hn E) as [N P]. sym_sat W. irr_sat W. solve_wf W N P.
  - apply (wf_same_links h); auto; [apply same_payload_take_next|apply take_next_none; auto].
Qed.
Lemma wf_take_prev h n : wf h -> live h n -> wf (fst (take_prev h n)).
Proof.
  intros W Hn. destruct n as [n|]; [|exact W].
  destruct (prev_of h (Some n)) as [m|] eqn:E.
  - destruct (take_prev_links h n m W Hn E) as [N P]. sym_sat W. irr_sat W. solve_wf W N P.
  - apply (wf_same_links h); auto; [apply same_payload_take_prev|apply take_prev_none; auto].
Qed.
Lemma wf_remove_next h n : wf h -> live h n -> wf (fst (remove_next h n)).
Proof.
  intros W Hn. destruct n as [n|]; [|exact W].
  destruct (remove_next_links h n W Hn) as [N P]. solve_wf W N P.
Qed.
Lemma wf_remove_prev h n : wf h -> live h n -> wf (fst (remove_prev h n)).
Proof.
  intros W Hn. destruct n as [n|]; [|exact W].
  destruct (remove_prev_links h n W Hn) as [N P]. solve_wf W N P.
Qed.
Lemma wf_isolate h n : wf h -> live h n -> wf (isolate h n).
Proof.
  intros W Hn. destruct n as [n|]; [|exact W].
  destruct (isolate_links h n W Hn) as [N P]. solve_wf W N P.
Qed.
