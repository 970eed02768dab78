(** Pointwise effect of the link operations on a well-formed heap. *)
From Verif Require Export Node SpecNode.

Lemma ptr_eqb_true a b : ptr_eqb a b = true <-> a = b.
Proof. unfold ptr_eqb. apply bool_decide_eq_true. Qed.
Lemma ptr_eqb_false a b : ptr_eqb a b = false <-> a <> b.
Proof. unfold ptr_eqb. apply bool_decide_eq_false. Qed.

(** ** Heap field accessors under [alter] *)
Lemma field_alter {A} (d : A) (f : node -> A) (g : node -> node) (h : heap) l x :
  field d f (alter g l h) (Some x) =
  if decide (x = l) then match h !! x with Some n => f (g n) | None => d end
  else field d f h (Some x).
Proof.
  unfold field. case_decide as E.
  - subst. rewrite (list_lookup_alter g h l). destruct (h !! l); reflexivity.
  - rewrite (list_lookup_alter_ne g h l x) by congruence. reflexivity.
Qed.

Lemma field_alter_same {A} (d : A) (f : node -> A) (g : node -> node) (h : heap) l p :
  (forall n, f (g n) = f n) -> field d f (alter g l h) p = field d f h p.
Proof.
  intros Hg. destruct p as [x|]; [|reflexivity].
  rewrite field_alter. case_decide; [|reflexivity]. subst. unfold field.
  destruct (h !! l); congruence.
Qed.

Lemma next_alter_prev h l v p : next_of (alter (with_prev v) l h) p = next_of h p.
Proof. apply field_alter_same. reflexivity. Qed.
Lemma prev_alter_next h l v p : prev_of (alter (with_next v) l h) p = prev_of h p.
Proof. apply field_alter_same. reflexivity. Qed.
Lemma next_alter_next h l v x : l < length h ->
  next_of (alter (with_next v) l h) (Some x) = if decide (x = l) then v else next_of h (Some x).
Proof.
  intros Hl. unfold next_of. rewrite field_alter. case_decide; [|reflexivity]. subst.
  destruct (lookup_lt_is_Some_2 h l Hl) as [n ->]. reflexivity.
Qed.
Lemma prev_alter_prev h l v x : l < length h ->
  prev_of (alter (with_prev v) l h) (Some x) = if decide (x = l) then v else prev_of h (Some x).
Proof.
  intros Hl. unfold prev_of. rewrite field_alter. case_decide; [|reflexivity]. subst.
  destruct (lookup_lt_is_Some_2 h l Hl) as [n ->]. reflexivity.
Qed.

Lemma next_of_lt h l m : next_of h (Some l) = Some m -> l < length h.
Proof. unfold next_of, field. destruct (h !! l) eqn:E; [|discriminate]. intros _. eapply lookup_lt_Some; eauto. Qed.
Lemma prev_of_lt h l m : prev_of h (Some l) = Some m -> l < length h.
Proof. unfold prev_of, field. destruct (h !! l) eqn:E; [|discriminate]. intros _. eapply lookup_lt_Some; eauto. Qed.

(** ** Payload *)
(** [same_payload h h']: same nodes with the same line, kind and text. *)
Lemma same_payload_refl h : same_payload h h.
Proof. split; auto. Qed.
Lemma same_payload_trans h1 h2 h3 : same_payload h1 h2 -> same_payload h2 h3 -> same_payload h1 h3.
Proof. intros [L1 P1] [L2 P2]. split; [congruence|]. intros p.
  destruct (P1 p) as (?&?&?), (P2 p) as (?&?&?). repeat split; congruence. Qed.
Lemma same_payload_alter h l g :
  (forall n, n_line (g n) = n_line n /\ n_kind (g n) = n_kind n /\ n_text (g n) = n_text n) ->
  same_payload h (alter g l h).
Proof.
  intros Hg. split; [apply alter_length|].
  intros p. unfold line_of, kind_of, text_of.
  rewrite !field_alter_same; [auto| | |]; apply Hg.
Qed.
Lemma same_payload_with_prev h l v : same_payload h (alter (with_prev v) l h).
Proof. apply same_payload_alter. intros n. repeat split. Qed.
Lemma same_payload_with_next h l v : same_payload h (alter (with_next v) l h).
Proof. apply same_payload_alter. intros n. repeat split. Qed.

Lemma same_payload_set_next h n v : same_payload h (set_next h n v).
Proof.
  unfold set_next. destruct n as [l|]; [|apply same_payload_refl].
  destruct (ptr_eqb _ _); [apply same_payload_refl|].
  destruct (next_of h (Some l)).
  - eapply same_payload_trans; [apply same_payload_with_prev|apply same_payload_with_next].
  - apply same_payload_with_next.
Qed.
Lemma same_payload_set_prev h n v : same_payload h (set_prev h n v).
Proof.
  unfold set_prev. destruct n as [l|]; [|apply same_payload_refl].
  destruct (ptr_eqb _ _); [apply same_payload_refl|].
  destruct (prev_of h (Some l)).
  - eapply same_payload_trans; [apply same_payload_with_next|apply same_payload_with_prev].
  - apply same_payload_with_prev.
Qed.

Lemma length_set_next h n v : length (set_next h n v) = length h.
Proof. symmetry. rewrite <- (proj1 (same_payload_set_next h n v)). reflexivity. Qed.
Lemma length_set_prev h n v : length (set_prev h n v) = length h.
Proof. symmetry. rewrite <- (proj1 (same_payload_set_prev h n v)). reflexivity. Qed.

(** ** [set_next] and [set_prev] pointwise *)
Lemma set_next_nil h v : set_next h None v = h. Proof. reflexivity. Qed.
Lemma set_prev_nil h v : set_prev h None v = h. Proof. reflexivity. Qed.

Lemma next_set_next h l v x : l < length h -> v <> Some l ->
  next_of (set_next h (Some l) v) (Some x) = if decide (x = l) then v else next_of h (Some x).
Proof.
  intros Hl Hv. unfold set_next.
  destruct (ptr_eqb (Some l) v) eqn:E; [apply ptr_eqb_true in E; congruence|].
  destruct (next_of h (Some l)); rewrite next_alter_next by (rewrite ?alter_length; done);
    case_decide; try reflexivity. apply next_alter_prev.
Qed.
Lemma prev_set_next h l v x : l < length h -> v <> Some l ->
  (forall m, next_of h (Some l) = Some m -> m < length h) ->
  prev_of (set_next h (Some l) v) (Some x) =
  if decide (next_of h (Some l) = Some x) then None else prev_of h (Some x).
Proof.
  intros Hl Hv Hm. unfold set_next.
  destruct (ptr_eqb (Some l) v) eqn:E; [apply ptr_eqb_true in E; congruence|].
  destruct (next_of h (Some l)) as [m|] eqn:En; rewrite prev_alter_next.
  - rewrite prev_alter_prev by auto. repeat case_decide; congruence.
  - case_decide; [discriminate|reflexivity].
Qed.
Lemma prev_set_prev h l v x : l < length h -> v <> Some l ->
  prev_of (set_prev h (Some l) v) (Some x) = if decide (x = l) then v else prev_of h (Some x).
Proof.
  intros Hl Hv. unfold set_prev.
  destruct (ptr_eqb (Some l) v) eqn:E; [apply ptr_eqb_true in E; congruence|].
  destruct (prev_of h (Some l)); rewrite prev_alter_prev by (rewrite ?alter_length; done);
    case_decide; try reflexivity. apply prev_alter_next.
Qed.
Lemma next_set_prev h l v x : l < length h -> v <> Some l ->
  (forall m, prev_of h (Some l) = Some m -> m < length h) ->
  next_of (set_prev h (Some l) v) (Some x) =
  if decide (prev_of h (Some l) = Some x) then None else next_of h (Some x).
Proof.
  intros Hl Hv Hm. unfold set_prev.
  destruct (ptr_eqb (Some l) v) eqn:E; [apply ptr_eqb_true in E; congruence|].
  destruct (prev_of h (Some l)) as [m|] eqn:En; rewrite next_alter_prev.
  - rewrite next_alter_next by auto. repeat case_decide; congruence.
  - case_decide; [discriminate|reflexivity].
Qed.

(** Links lead to existing nodes. *)
Definition okl (h : heap) : Prop :=
  (forall a b, next_of h (Some a) = Some b -> b < length h) /\
  (forall a b, prev_of h (Some a) = Some b -> b < length h).

Lemma set_next_spec h l v : okl h -> l < length h -> live h v -> v <> Some l ->
  let h' := set_next h (Some l) v in
  length h' = length h /\ okl h' /\
  (forall x, next_of h' (Some x) = if decide (x = l) then v else next_of h (Some x)) /\
  (forall x, prev_of h' (Some x) = if decide (next_of h (Some l) = Some x) then None else prev_of h (Some x)).
Proof.
  intros [O1 O2] Hl Hv Hne h'.
  assert (HN : forall x, next_of h' (Some x) = if decide (x = l) then v else next_of h (Some x))
    by (intros; apply next_set_next; auto).
  assert (HP : forall x, prev_of h' (Some x) = if decide (next_of h (Some l) = Some x) then None else prev_of h (Some x))
    by (intros; apply prev_set_next; eauto).
  assert (HL : length h' = length h) by apply length_set_next.
  split; [exact HL|]. split; [|split; assumption].
  split; intros a b; [rewrite HN|rewrite HP]; case_decide; intros E; rewrite HL.
  - subst v. apply Hv.
  - eauto.
  - discriminate.
  - eauto.
Qed.

Lemma set_prev_spec h l v : okl h -> l < length h -> live h v -> v <> Some l ->
  let h' := set_prev h (Some l) v in
  length h' = length h /\ okl h' /\
  (forall x, next_of h' (Some x) = if decide (prev_of h (Some l) = Some x) then None else next_of h (Some x)) /\
  (forall x, prev_of h' (Some x) = if decide (x = l) then v else prev_of h (Some x)).
Proof.
  intros [O1 O2] Hl Hv Hne h'.
  assert (HP : forall x, prev_of h' (Some x) = if decide (x = l) then v else prev_of h (Some x))
    by (intros; apply prev_set_prev; auto).
  assert (HN : forall x, next_of h' (Some x) = if decide (prev_of h (Some l) = Some x) then None else next_of h (Some x))
    by (intros; apply next_set_prev; eauto).
  assert (HL : length h' = length h) by apply length_set_prev.
  split; [exact HL|]. split; [|split; assumption].
  split; intros a b; [rewrite HN|rewrite HP]; case_decide; intros E; rewrite HL.
  - discriminate.
  - eauto.
  - subst v. apply Hv.
  - eauto.
Qed.

Lemma wf_okl h : wf h -> okl h.
Proof. intros W. split; [apply (wf_next_valid _ W)|apply (wf_prev_valid _ W)]. Qed.
Lemma wf_irrefl_prev h : wf h -> forall a, prev_of h (Some a) <> Some a.
Proof. intros W a E. apply (wf_sym _ W) in E. by apply (wf_irrefl _ W) in E. Qed.

(** Split every [decide] in the hypothesis, innermost first, pruning
    contradictory branches at once. *)
Ltac crush_in H :=
  repeat match type of H with
  | context [decide (?a = ?b)] =>
    lazymatch a with context [decide _] => fail | _ => idtac end;
    destruct (decide (a = b)) as [?E|?E]; try (exfalso; congruence)
  end.

(** [H : v = next_of h' (Some l)]: compute the value in terms of the initial heap. *)
Ltac eval_ptr v H :=
  repeat (match goal with E : forall x : nat, _ = (if decide _ then _ else _) |- _ => rewrite E in H end; crush_in H);
  repeat match goal with
  | E : next_of ?h (Some ?a) = _ |- _ =>
    match type of H with v = next_of h (Some a) => rewrite E in H end
  | E : prev_of ?h (Some ?a) = _ |- _ =>
    match type of H with v = prev_of h (Some a) => rewrite E in H end
  end; subst v.

(** Peel one [set_next]/[set_prev] off the goal. *)
Ltac peel_side := first [ assumption | unfold valid in *; lia | exact Logic.I | congruence | simpl; unfold valid in *; lia ].
Ltac peel1 :=
  first
  [ rewrite set_next_nil | rewrite set_prev_nil
  | match goal with
    | |- context [set_next ?h (Some ?l) ?v] =>
      is_var h;
      let L := fresh "L" in let O := fresh "O" in let N := fresh "N" in let P := fresh "P" in
      let h' := fresh "h" in let w := fresh "w" in let Hw := fresh "Hw" in
      destruct (set_next_spec h l v) as (L & O & N & P); [ peel_side .. | ];
      set (h' := set_next h (Some l) v) in *; clearbody h';
      assert (exists w, w = next_of h (Some l)) as [w Hw] by eauto;
      rewrite <- Hw in P; revert L O N P; eval_ptr w Hw; intros L O N P
    | |- context [set_prev ?h (Some ?l) ?v] =>
      is_var h;
      let L := fresh "L" in let O := fresh "O" in let N := fresh "N" in let P := fresh "P" in
      let h' := fresh "h" in let w := fresh "w" in let Hw := fresh "Hw" in
      destruct (set_prev_spec h l v) as (L & O & N & P); [ peel_side .. | ];
      set (h' := set_prev h (Some l) v) in *; clearbody h';
      assert (exists w, w = prev_of h (Some l)) as [w Hw] by eauto;
      rewrite <- Hw in N; revert L O N P; eval_ptr w Hw; intros L O N P
    end ].

Ltac use_eqs := repeat match goal with H : forall x : nat, _ = (if decide _ then _ else _) |- _ => rewrite ?H; clear H end.

(** Split every [decide], pruning contradictory branches at once. *)
Ltac crush_links :=
  repeat match goal with
  | |- context [decide (?a = ?b)] =>
    lazymatch a with context [decide _] => fail | _ => idtac end;
    destruct (decide (a = b)) as [?E|?E]; try congruence
  end; try congruence.

(** Everything that follows from well-formedness for a known link. *)
Ltac wf_known W :=
  repeat match goal with
  | H : next_of ?h (Some ?a) = Some ?b |- _ =>
    lazymatch goal with
    | _ : prev_of h (Some b) = Some a |- _ => fail
    | _ => pose proof (proj1 (wf_sym _ W a b) H)
    end
  | H : prev_of ?h (Some ?a) = Some ?b |- _ =>
    lazymatch goal with
    | _ : next_of h (Some b) = Some a |- _ => fail
    | _ => pose proof (proj2 (wf_sym _ W b a) H)
    end
  | H : next_of ?h (Some ?a) = Some ?b |- _ =>
    lazymatch goal with
    | _ : valid h b |- _ => fail
    | _ => pose proof (wf_next_valid _ W a b H)
    end
  | H : prev_of ?h (Some ?a) = Some ?b |- _ =>
    lazymatch goal with
    | _ : valid h b |- _ => fail
    | _ => pose proof (wf_prev_valid _ W a b H)
    end
  | H : next_of ?h (Some ?a) = Some ?b |- _ =>
    lazymatch goal with
    | _ : a <> b |- _ => fail
    | _ => assert (a <> b) by (intros ->; exact (wf_irrefl _ W _ H))
    end
  end.

Ltac rw_false :=
  repeat match goal with
  | |- context [ptr_eqb ?a ?b] =>
    replace (ptr_eqb a b) with false by (symmetry; apply ptr_eqb_false; congruence)
  end; cbn [orb fst].

Ltac finish_links W :=
  split; intros x;
  [ pose proof (fun b => proj1 (wf_sym _ W x b)) as Sx | pose proof (fun b => proj2 (wf_sym _ W b x)) as Sx ];
  use_eqs; crush_links;
  repeat match goal with
  | H : next_of _ (Some ?x) = Some ?y, S : forall b, next_of _ (Some ?x) = Some b -> _ |- _ => apply S in H
  | H : prev_of _ (Some ?x) = Some ?y, S : forall b, prev_of _ (Some ?x) = Some b -> _ |- _ => apply S in H
  end; congruence.

Lemma insert_next_links h n nn : wf h -> valid h n -> valid h nn -> n <> nn ->
  next_of h (Some n) <> Some nn ->
  let h' := fst (insert_next h (Some n) (Some nn)) in
  (forall x, next_of h' (Some x) =
     if decide (x = n) then Some nn else if decide (x = nn) then next_of h (Some n)
     else if decide (next_of h (Some x) = Some nn) then None else next_of h (Some x)) /\
  (forall x, prev_of h' (Some x) =
     if decide (x = nn) then Some n else if decide (next_of h (Some n) = Some x) then Some nn
     else if decide (prev_of h (Some x) = Some nn) then None else prev_of h (Some x)).
Proof.
  intros W Hn Hnn Hne Hnx.
  pose proof (wf_okl _ W) as O.
  unfold insert_next. rw_false.
  destruct (next_of h (Some n)) as [c|] eqn:Ec;
  destruct (prev_of h (Some nn)) as [p|] eqn:Ep;
  destruct (next_of h (Some nn)) as [q|] eqn:Eq;
  wf_known W; do 6 peel1; finish_links W.
Qed.

Lemma insert_prev_links h n nn : wf h -> valid h n -> valid h nn -> n <> nn ->
  prev_of h (Some n) <> Some nn ->
  let h' := fst (insert_prev h (Some n) (Some nn)) in
  (forall x, next_of h' (Some x) =
     if decide (x = nn) then Some n else if decide (prev_of h (Some n) = Some x) then Some nn
     else if decide (next_of h (Some x) = Some nn) then None else next_of h (Some x)) /\
  (forall x, prev_of h' (Some x) =
     if decide (x = n) then Some nn else if decide (x = nn) then prev_of h (Some n)
     else if decide (prev_of h (Some x) = Some nn) then None else prev_of h (Some x)).
Proof.
  intros W Hn Hnn Hne Hnx.
  pose proof (wf_okl _ W) as O.
  unfold insert_prev. rw_false.
  destruct (prev_of h (Some n)) as [c|] eqn:Ec;
  destruct (prev_of h (Some nn)) as [p|] eqn:Ep;
  destruct (next_of h (Some nn)) as [q|] eqn:Eq;
  wf_known W; do 6 peel1; finish_links W.
Qed.

Lemma replace_next_links h n nn : wf h -> valid h n -> valid h nn -> n <> nn ->
  next_of h (Some n) <> Some nn ->
  let h' := fst (replace_next h (Some n) (Some nn)) in
  (forall x, next_of h' (Some x) =
     if decide (x = n) then Some nn
     else if decide (next_of h (Some x) = Some nn) then None else next_of h (Some x)) /\
  (forall x, prev_of h' (Some x) =
     if decide (x = nn) then Some n
     else if decide (prev_of h (Some x) = Some n) then None else prev_of h (Some x)).
Proof.
  intros W Hn Hnn Hne Hnx.
  pose proof (wf_okl _ W) as O.
  unfold replace_next. rw_false.
  destruct (next_of h (Some n)) as [c|] eqn:Ec;
  destruct (prev_of h (Some nn)) as [p|] eqn:Ep;
  wf_known W; do 4 peel1; finish_links W.
Qed.

Lemma replace_prev_links h n nn : wf h -> valid h n -> valid h nn -> n <> nn ->
  prev_of h (Some n) <> Some nn ->
  let h' := fst (replace_prev h (Some n) (Some nn)) in
  (forall x, next_of h' (Some x) =
     if decide (x = nn) then Some n
     else if decide (next_of h (Some x) = Some n) then None else next_of h (Some x)) /\
  (forall x, prev_of h' (Some x) =
     if decide (x = n) then Some nn
     else if decide (prev_of h (Some x) = Some nn) then None else prev_of h (Some x)).
Proof.
  intros W Hn Hnn Hne Hnx.
  pose proof (wf_okl _ W) as O.
  unfold replace_prev. rw_false.
  destruct (prev_of h (Some n)) as [c|] eqn:Ec;
  destruct (next_of h (Some nn)) as [p|] eqn:Ep;
  wf_known W; do 4 peel1; finish_links W.
Qed.

Lemma remove_next_links h n : wf h -> valid h n ->
  let h' := fst (remove_next h (Some n)) in
  (forall x, next_of h' (Some x) = if decide (x = n) then None else next_of h (Some x)) /\
  (forall x, prev_of h' (Some x) =
     if decide (prev_of h (Some x) = Some n) then None else prev_of h (Some x)).
Proof.
  intros W Hn. pose proof (wf_okl _ W) as O. unfold remove_next. cbn [fst].
  destruct (next_of h (Some n)) as [c|] eqn:Ec;
  wf_known W; do 2 peel1; finish_links W.
Qed.

Lemma remove_prev_links h n : wf h -> valid h n ->
  let h' := fst (remove_prev h (Some n)) in
  (forall x, next_of h' (Some x) =
     if decide (next_of h (Some x) = Some n) then None else next_of h (Some x)) /\
  (forall x, prev_of h' (Some x) = if decide (x = n) then None else prev_of h (Some x)).
Proof.
  intros W Hn. pose proof (wf_okl _ W) as O. unfold remove_prev. cbn [fst].
  destruct (prev_of h (Some n)) as [c|] eqn:Ec;
  wf_known W; do 2 peel1; finish_links W.
Qed.

Lemma set_next_self h n : set_next h (Some n) (Some n) = h.
Proof. unfold set_next. destruct (ptr_eqb _ _) eqn:E; [done|]. apply ptr_eqb_false in E. congruence. Qed.
Lemma set_prev_self h n : set_prev h (Some n) (Some n) = h.
Proof. unfold set_prev. destruct (ptr_eqb _ _) eqn:E; [done|]. apply ptr_eqb_false in E. congruence. Qed.

Lemma take_next_links h n m : wf h -> valid h n -> next_of h (Some n) = Some m ->
  let h' := fst (take_next h (Some n)) in
  (forall x, next_of h' (Some x) =
     if decide (x = m) then None
     else if decide (x = n) then (if decide (next_of h (Some m) = Some n) then None else next_of h (Some m))
     else next_of h (Some x)) /\
  (forall x, prev_of h' (Some x) =
     if decide (x = m) then None
     else if decide (prev_of h (Some x) = Some m) then (if decide (x = n) then None else Some n)
     else prev_of h (Some x)).
Proof.
  intros W Hn Hm. pose proof (wf_okl _ W) as O. unfold take_next. cbn [fst]. rewrite Hm.
  destruct (next_of h (Some m)) as [k|] eqn:Ek; wf_known W.
  - destruct (decide (k = n)) as [->|Hk].
    + rewrite set_next_self, set_prev_self. do 2 peel1; finish_links W.
    + do 4 peel1; finish_links W.
  - do 4 peel1; finish_links W.
Qed.

Lemma take_prev_links h n m : wf h -> valid h n -> prev_of h (Some n) = Some m ->
  let h' := fst (take_prev h (Some n)) in
  (forall x, next_of h' (Some x) =
     if decide (x = m) then None
     else if decide (next_of h (Some x) = Some m) then (if decide (x = n) then None else Some n)
     else next_of h (Some x)) /\
  (forall x, prev_of h' (Some x) =
     if decide (x = m) then None
     else if decide (x = n) then (if decide (prev_of h (Some m) = Some n) then None else prev_of h (Some m))
     else prev_of h (Some x)).
Proof.
  intros W Hn Hm. pose proof (wf_okl _ W) as O. unfold take_prev. cbn [fst]. rewrite Hm.
  destruct (prev_of h (Some m)) as [k|] eqn:Ek; wf_known W.
  - destruct (decide (k = n)) as [->|Hk].
    + rewrite set_next_self, set_prev_self. do 2 peel1; finish_links W.
    + do 4 peel1; finish_links W.
  - do 4 peel1; finish_links W.
Qed.

Lemma set_next_none_same h n : wf h -> valid h n -> next_of h (Some n) = None ->
  forall x, same_links h (set_next h (Some n) None) x.
Proof.
  intros W Hn E. pose proof (wf_okl _ W) as O. peel1. intros x. split; use_eqs; crush_links.
Qed.

Lemma isolate_links h n : wf h -> valid h n ->
  let h' := isolate h (Some n) in
  (forall x, next_of h' (Some x) =
     if decide (x = n) then None
     else if decide (next_of h (Some x) = Some n) then None else next_of h (Some x)) /\
  (forall x, prev_of h' (Some x) =
     if decide (x = n) then None
     else if decide (prev_of h (Some x) = Some n) then None else prev_of h (Some x)).
Proof.
  intros W Hn. pose proof (wf_okl _ W) as O. unfold isolate.
  destruct (prev_of h (Some n)) as [p|] eqn:Ep; destruct (next_of h (Some n)) as [q|] eqn:Eq;
    wf_known W.
  - peel1. assert (E : next_of h0 (Some n) = (if decide (n = p) then None else Some q)) by (rewrite N; crush_links).
    rewrite E. crush_in E; [finish_links W..|].
    do 3 peel1; finish_links W.
  - peel1. assert (E : next_of h0 (Some n) = None) by (rewrite N; crush_links).
    rewrite E. do 3 peel1; finish_links W.
  - rewrite set_next_nil, Eq. do 3 peel1; finish_links W.
  - rewrite set_next_nil, Eq. do 3 peel1; finish_links W.
Qed.
