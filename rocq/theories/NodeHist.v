(** Invariants of all histories of Node API calls. *)
From Verif Require Export SpecHist NodeNew.

#[local] Arguments set_kind : simpl never.
#[local] Arguments set_text : simpl never.
(** ** Well-formedness *)
Lemma live_mono h h' p : length h <= length h' -> live h p -> live h' p.
Proof. destruct p; [|done]. unfold live, valid. lia. Qed.

Lemma wf_combine rev_ h n k nns h' r : wf h -> live h n -> Forall (live h) nns ->
  combine rev_ h n k nns = Ok (h', r) -> wf h' /\ length h' = length h /\ live h' r.
Proof.
  intros W Ln Lnns. destruct n as [l|].
  - rewrite combine_spec. intros [= <- <-]. destruct nns as [|a rest].
    + split; [by apply wf_set_kind|]. rewrite length_set_kind. split; [done|].
      by apply (live_mono h); [by rewrite length_set_kind|].
    + set (ps := absorbed _ _).
      assert (LP : Forall (live (set_kind h (Some l) k)) ps).
      { apply Forall_forall. intros p Hp. apply (live_mono h); [by rewrite length_set_kind|].
        apply elem_of_list_filter in Hp as [_ Hp]. rewrite Forall_forall in Lnns. by apply Lnns. }
      assert (LL : length (set_text (isolate_all (set_kind h (Some l) k) ps) (Some l)
        (combined rev_ (text_of h (Some l)) (map (text_of h) ps))) = length h).
      { rewrite length_set_text, (proj1 (same_payload_isolate_all _ _)). apply length_set_kind. }
      split_and!; [|done|by apply (live_mono h); [rewrite LL|]].
      apply wf_set_text, wf_isolate_all; [by apply wf_set_kind|done].
  - destruct nns as [|a rest]; [intros [= <- <-]; done|].
    unfold combine. change (set_kind h None k) with h. rewrite combine_loop_spec.
    destruct a as [a|]; [|discriminate]. intros [= <- <-].
    apply Forall_cons in Lnns as [La Lr]. set (ps := absorbed _ _).
    assert (LP : Forall (live h) ps).
    { apply Forall_forall. intros p Hp. apply elem_of_list_filter in Hp as [_ Hp]. rewrite Forall_forall in Lr. by apply Lr. }
    match goal with |- context [alter (with_text ?t) a ?H] => change (alter (with_text t) a H) with (set_text H (Some a) t) end.
    match goal with |- wf ?H /\ _ => assert (LL : length H = length h) end.
    { rewrite length_set_text. apply (proj1 (same_payload_isolate_all _ _)). }
    split_and!; [|done|by apply (live_mono h); [rewrite LL|]].
    by apply wf_set_text, wf_isolate_all.
Qed.

Lemma wf_new_node h line t ks : wf h -> wf (fst (new_node h line t ks)).
Proof.
  intros W. pose proof (new_node_spec h line t ks) as S. destruct (new_node h line t ks) as [h' c].
  destruct S as (-> & [k ->] & C & M & _). by eapply wf_extend.
Qed.
Lemma wf_new_nodes h line ts : wf h -> wf (fst (new_nodes h line ts)).
Proof.
  intros W. destruct ts as [|t ts]; [done|].
  pose proof (new_nodes_spec h line t ts) as S. destruct (new_nodes h line (t :: ts)) as [h' c].
  destruct S as (ls & _ & _ & [k ->] & C & M & _). by eapply wf_extend.
Qed.
Lemma copy_one h l : copy h (Some l) false = Ok (h ++ [cp h l None None], Some (length h)).
Proof. done. Qed.
Lemma cp_chain h l : chain (h ++ [cp h l None None]) [length h] /\
  forall x, length h <= x < length (h ++ [cp h l None None]) <-> x ∈ [length h].
Proof.
  assert (E : (h ++ [cp h l None None]) !! length h = Some (cp h l None None)) by (by rewrite list_lookup_middle).
  split.
  - unfold chain. cbn [seg]. unfold next_of, prev_of. rewrite !(field_lookup _ _ _ _ _ E).
    split_and!; try done. by eapply lookup_lt_Some.
  - intros x. rewrite app_length, elem_of_list_singleton. simpl. lia.
Qed.
Lemma wf_copy h n rel h' r : wf h -> live h n -> copy h n rel = Ok (h', r) -> wf h' /\ h `prefix_of` h' /\ live h' r.
Proof.
  intros W L E. destruct n as [l|]; [|injection E as <- <-; done].
  destruct rel.
  - destruct (copy_inv h l h' r W L E) as (xs & ys & C).
    destruct (copy_spec h l xs ys C) as (h1 & c & xs' & ys' & E1 & [k ->] & _ & C1 & M & _).
    rewrite E in E1. injection E1 as -> ->. split_and!; [by eapply wf_extend|by eexists|].
    eapply seg_valid; [exact C1|]. apply elem_of_app. right. by left.
  - rewrite copy_one in E. injection E as <- <-. destruct (cp_chain h l) as [C M].
    split_and!; [by eapply wf_extend|by eexists|]. eapply seg_valid; [exact C|by left].
Qed.

Lemma exec_wf h o h' rs : wf h -> legal h o -> exec h o = Ok (h', rs) -> wf h' /\ length h <= length h'.
Proof.
  intros W L E. unfold legal in L.
  destruct o; cbn [exec args] in *; rewrite ?Forall_cons in L; try (destruct L as [L1 L2]); try (destruct L2 as [L2 _]);
  try (injection E as <- <-).
  - pose proof (wf_new_node h line text kinds W) as G.
    destruct (new_node h line text kinds) as [h1 l] eqn:N. injection E as <- <-. split; [done|].
    pose proof (new_node_spec h line text kinds) as S. rewrite N in S. destruct S as (_ & [k ->] & _). rewrite app_length; lia.
  - split; [by apply wf_new_nodes|]. destruct texts as [|t ts]; [done|].
    pose proof (new_nodes_spec h line t ts) as S. destruct (new_nodes h line (t :: ts)) as [h' c].
    destruct S as (ls & _ & _ & [k ->] & _). cbn [fst]; rewrite app_length; lia.
  - destruct (copy h n rel) as [[h1 r]| |] eqn:C; try discriminate. injection E as <- <-.
    destruct (wf_copy h n rel h1 r W L1 C) as (? & [k ->] & _). split; [done|]. cbn [fst]; rewrite app_length; lia.
  - split; [by apply wf_insert_prev|]. apply Nat.eq_le_incl; symmetry; apply (proj1 (same_payload_insert_prev h n nn)).
  - split; [by apply wf_insert_next|]. apply Nat.eq_le_incl; symmetry; apply (proj1 (same_payload_insert_next h n nn)).
  - split; [by apply wf_replace_prev|]. apply Nat.eq_le_incl; symmetry; apply (proj1 (same_payload_replace_prev h n nn)).
  - split; [by apply wf_replace_next|]. apply Nat.eq_le_incl; symmetry; apply (proj1 (same_payload_replace_next h n nn)).
  - split; [by apply wf_take_prev|]. apply Nat.eq_le_incl; symmetry; apply (proj1 (same_payload_take_prev h n)).
  - split; [by apply wf_take_next|]. apply Nat.eq_le_incl; symmetry; apply (proj1 (same_payload_take_next h n)).
  - split; [by apply wf_remove_prev|]. apply Nat.eq_le_incl; symmetry; apply (proj1 (same_payload_remove_prev h n)).
  - split; [by apply wf_remove_next|]. apply Nat.eq_le_incl; symmetry; apply (proj1 (same_payload_remove_next h n)).
  - split; [by apply wf_isolate|]. apply Nat.eq_le_incl; symmetry; apply (proj1 (same_payload_isolate h n)).
  - unfold combine_prev in E. destruct (combine true h n k nns) as [[h1 r]| |] eqn:C; try discriminate. injection E as <- <-.
    apply wf_combine in C as (? & -> & _); auto.
  - unfold combine_next in E. destruct (combine false h n k nns) as [[h1 r]| |] eqn:C; try discriminate. injection E as <- <-.
    apply wf_combine in C as (? & -> & _); auto.
  - split; [by apply wf_set_kind|]. rewrite length_set_kind; lia.
  - split; [by apply wf_set_text|]. rewrite length_set_text; lia.
Qed.

Lemma wf_nil : wf [].
Proof. constructor; intros; try discriminate. split; intros; discriminate. Qed.

Lemma hist_wf h ops h' : wf h -> hist h ops h' -> wf h' /\ length h <= length h'.
Proof.
  intros W H. induction H as [h|h o h1 rs ops h2 L E H IH]; [done|].
  destruct (exec_wf h o h1 rs W L E) as [W1 L1]. destruct (IH W1) as [W2 L2]. split; [done|lia].
Qed.

(** ** Acyclicity *)
(** The only calls that can close a cycle. *)
Definition op_safe (h : heap) (o : op) : Prop :=
  match o with
  | OReplaceNext (Some n) (Some nn) => ~ tc (nxt h) nn n
  | OReplacePrev (Some n) (Some nn) => ~ tc (nxt h) n nn
  | _ => True
  end.

Lemma acyclic_links h h' : acyclic h -> (forall a b, next_of h' (Some a) = Some b -> next_of h (Some a) = Some b) -> acyclic h'.
Proof. intros A S. by apply (acyclic_sub h A). Qed.

Lemma acyclic_combine rev_ h n k nns h' r : wf h -> acyclic h -> live h n -> Forall (live h) nns ->
  combine rev_ h n k nns = Ok (h', r) -> acyclic h'.
Proof.
  intros W A Ln Lnns.
  assert (AK : forall p, acyclic (set_kind h p k)).
  { intros p. eapply (acyclic_same h A). intros x. apply links_set_kind. }
  assert (AT : forall H p t, acyclic H -> acyclic (set_text H p t)).
  { intros H p t AH. eapply (acyclic_same H AH). intros x. apply links_set_text. }
  destruct n as [l|].
  - rewrite combine_spec. intros [= <- <-]. destruct nns as [|a rest]; [done|].
    apply AT, acyclic_isolate_all; [by apply wf_set_kind|done|].
    apply Forall_forall. intros p Hp. apply (live_mono h); [by rewrite length_set_kind|].
    apply elem_of_list_filter in Hp as [_ Hp]. rewrite Forall_forall in Lnns. by apply Lnns.
  - destruct nns as [|a rest]; [intros [= <- <-]; done|].
    unfold combine. change (set_kind h None k) with h. rewrite combine_loop_spec.
    destruct a as [a|]; [|discriminate]. intros [= <- <-].
    apply Forall_cons in Lnns as [La Lr].
    apply (AT _ (Some a)), acyclic_isolate_all; [done|done|].
    apply Forall_forall. intros p Hp. apply elem_of_list_filter in Hp as [_ Hp]. rewrite Forall_forall in Lr. by apply Lr.
Qed.

Lemma exec_acyclic h o h' rs : wf h -> acyclic h -> legal h o -> op_safe h o -> exec h o = Ok (h', rs) -> acyclic h'.
Proof.
  intros W A L SF E. unfold legal in L.
  destruct o; cbn [exec args] in *; rewrite ?Forall_cons in L; try (destruct L as [L1 L2]); try (destruct L2 as [L2 _]);
  try (injection E as <- <-).
  - pose proof (new_node_spec h line text kinds) as S. destruct (new_node h line text kinds) as [h1 c].
    injection E as <- <-. destruct S as (-> & [k ->] & C & M & _). by eapply acyclic_extend.
  - destruct texts as [|t ts]; [done|].
    pose proof (new_nodes_spec h line t ts) as S. destruct (new_nodes h line (t :: ts)) as [h' c].
    destruct S as (ls & _ & _ & [k ->] & C & M & _). by eapply acyclic_extend.
  - destruct (copy h n rel) as [[h1 r]| |] eqn:C; try discriminate. injection E as <- <-. simpl.
    destruct n as [l|]; [|injection C as <- <-; done]. destruct rel.
    + destruct (copy_inv h l h1 r W L1 C) as (xs & ys & CH).
      destruct (copy_spec h l xs ys CH) as (h2 & c & xs' & ys' & E1 & [k ->] & _ & C1 & M & _).
      rewrite C in E1. injection E1 as -> ->. by eapply acyclic_extend.
    + rewrite copy_one in C. injection C as <- <-. destruct (cp_chain h l) as [C M]. by eapply acyclic_extend.
  - by apply acyclic_insert_prev.
  - by apply acyclic_insert_next.
  - destruct n as [n|], nn as [nn|]; simpl in SF.
    + by apply acyclic_replace_prev.
    + eapply acyclic_links; [exact A|]. intros a b. rewrite (proj1 (replace_prev_nil_arg_links h n W L1)). by case_decide.
    + eapply acyclic_links; [exact A|]. intros a b. rewrite (proj1 (replace_prev_nil_recv_links h nn W L2)). by case_decide.
    + done.
  - destruct n as [n|], nn as [nn|]; simpl in SF.
    + by apply acyclic_replace_next.
    + eapply acyclic_links; [exact A|]. intros a b. rewrite (proj1 (replace_next_nil_arg_links h n W L1)). by case_decide.
    + eapply acyclic_links; [exact A|]. intros a b. rewrite (proj1 (replace_next_nil_recv_links h nn W L2)). by case_decide.
    + done.
  - by apply acyclic_take_prev.
  - by apply acyclic_take_next.
  - by apply acyclic_remove_prev.
  - by apply acyclic_remove_next.
  - by apply acyclic_isolate.
  - unfold combine_prev in E. destruct (combine true h n k nns) as [[h1 r]| |] eqn:C; try discriminate. injection E as <- <-.
    by eapply acyclic_combine in C.
  - unfold combine_next in E. destruct (combine false h n k nns) as [[h1 r]| |] eqn:C; try discriminate. injection E as <- <-.
    by eapply acyclic_combine in C.
  - eapply (acyclic_same h A). intros x. apply links_set_kind.
  - eapply (acyclic_same h A). intros x. apply links_set_text.
Qed.

(** ** Link frame *)

Ltac frame_tac W lem :=
  destruct lem as [N P]; split; [rewrite N|rewrite P];
  unfold near in *; repeat case_decide; subst; try done; exfalso; sym_sat W; try tauto;
  intuition congruence.
Lemma near_insert_next h n nn x : wf h -> live h n -> live h nn -> ~ near h n x -> ~ near h nn x ->
  same_links h (fst (insert_next h n nn)) x.
Proof.
  intros W L1 L2 H1 H2. destruct n as [n|], nn as [nn|].
  - destruct (ptr_cases (Some n) (Some nn)) as [[E ?]|[E ?]].
    { unfold insert_next. rewrite E. done. }
    destruct (ptr_cases (next_of h (Some n)) (Some nn)) as [[E' ?]|[E' ?]].
    { unfold insert_next. rewrite E', orb_true_r. done. }
    frame_tac W (insert_next_links h n nn W L1 L2 ltac:(congruence) ltac:(done)).
  - frame_tac W (insert_next_nil_arg_links h n W L1).
  - frame_tac W (insert_next_nil_recv_links h nn W L2).
  - done.
Qed.
Lemma near_insert_prev h n nn x : wf h -> live h n -> live h nn -> ~ near h n x -> ~ near h nn x ->
  same_links h (fst (insert_prev h n nn)) x.
Proof.
  intros W L1 L2 H1 H2. destruct n as [n|], nn as [nn|].
  - destruct (ptr_cases (Some n) (Some nn)) as [[E ?]|[E ?]].
    { unfold insert_prev. rewrite E. done. }
    destruct (ptr_cases (prev_of h (Some n)) (Some nn)) as [[E' ?]|[E' ?]].
    { unfold insert_prev. rewrite E', orb_true_r. done. }
    frame_tac W (insert_prev_links h n nn W L1 L2 ltac:(congruence) ltac:(done)).
  - frame_tac W (insert_prev_nil_arg_links h n W L1).
  - frame_tac W (insert_prev_nil_recv_links h nn W L2).
  - done.
Qed.
Lemma near_replace_next h n nn x : wf h -> live h n -> live h nn -> ~ near h n x -> ~ near h nn x ->
  same_links h (fst (replace_next h n nn)) x.
Proof.
  intros W L1 L2 H1 H2. destruct n as [n|], nn as [nn|].
  - destruct (ptr_cases (Some n) (Some nn)) as [[E ?]|[E ?]].
    { unfold replace_next. rewrite E. done. }
    destruct (ptr_cases (next_of h (Some n)) (Some nn)) as [[E' ?]|[E' ?]].
    { unfold replace_next. rewrite E', orb_true_r. done. }
    frame_tac W (replace_next_links h n nn W L1 L2 ltac:(congruence) ltac:(done)).
  - frame_tac W (replace_next_nil_arg_links h n W L1).
  - frame_tac W (replace_next_nil_recv_links h nn W L2).
  - done.
Qed.
Lemma near_replace_prev h n nn x : wf h -> live h n -> live h nn -> ~ near h n x -> ~ near h nn x ->
  same_links h (fst (replace_prev h n nn)) x.
Proof.
  intros W L1 L2 H1 H2. destruct n as [n|], nn as [nn|].
  - destruct (ptr_cases (Some n) (Some nn)) as [[E ?]|[E ?]].
    { unfold replace_prev. rewrite E. done. }
    destruct (ptr_cases (prev_of h (Some n)) (Some nn)) as [[E' ?]|[E' ?]].
    { unfold replace_prev. rewrite E', orb_true_r. done. }
    frame_tac W (replace_prev_links h n nn W L1 L2 ltac:(congruence) ltac:(done)).
  - frame_tac W (replace_prev_nil_arg_links h n W L1).
  - frame_tac W (replace_prev_nil_recv_links h nn W L2).
  - done.
Qed.
Lemma near_remove_next h n x : wf h -> live h n -> ~ near h n x -> same_links h (fst (remove_next h n)) x.
Proof. intros W L1 H1. destruct n as [n|]; [|done]. frame_tac W (remove_next_links h n W L1). Qed.
Lemma near_remove_prev h n x : wf h -> live h n -> ~ near h n x -> same_links h (fst (remove_prev h n)) x.
Proof. intros W L1 H1. destruct n as [n|]; [|done]. frame_tac W (remove_prev_links h n W L1). Qed.
Lemma near_isolate h n x : wf h -> live h n -> ~ near h n x -> same_links h (isolate h n) x.
Proof. intros W L1 H1. destruct n as [n|]; [|done]. frame_tac W (isolate_links h n W L1). Qed.
Lemma near_take_next h n x : wf h -> live h n -> ~ near h n x -> ~ near h (next_of h n) x -> same_links h (fst (take_next h n)) x.
Proof.
  intros W L1 H1 H2. destruct n as [n|]; [|done].
  destruct (next_of h (Some n)) as [m|] eqn:E; [|by apply take_next_none].
  frame_tac W (take_next_links h n m W L1 E).
Qed.
Lemma near_take_prev h n x : wf h -> live h n -> ~ near h n x -> ~ near h (prev_of h n) x -> same_links h (fst (take_prev h n)) x.
Proof.
  intros W L1 H1 H2. destruct n as [n|]; [|done].
  destruct (prev_of h (Some n)) as [m|] eqn:E; [|by apply take_prev_none].
  frame_tac W (take_prev_links h n m W L1 E).
Qed.

(** ** Regions *)
(** A set [D] of nodes no link leads out of. *)
Definition pin (D : loc -> Prop) (p : ptr) : Prop := match p with None => True | Some l => D l end.
Definition closed (D : loc -> Prop) (h : heap) : Prop :=
  forall x, D x -> pin D (next_of h (Some x)) /\ pin D (prev_of h (Some x)).
(** Only nodes of [D] have changed. *)
Definition outside (D : loc -> Prop) (h h' : heap) : Prop :=
  length h <= length h' /\ forall x, ~ D x -> h' !! x = h !! x.

Lemma outside_refl D h : outside D h h.
Proof. split; [lia|done]. Qed.
Lemma outside_trans D h1 h2 h3 : outside D h1 h2 -> outside D h2 h3 -> outside D h1 h3.
Proof. intros [L1 F1] [L2 F2]. split; [lia|]. intros x Hx. rewrite F2, F1; done. Qed.

Definition conf (D : loc -> Prop) (h h' : heap) : Prop := closed D h' /\ outside D h h'.
Lemma conf_trans D h1 h2 h3 : conf D h1 h2 -> conf D h2 h3 -> conf D h1 h3.
Proof. intros [C1 F1] [C2 F2]. split; [done|by eapply outside_trans]. Qed.
Lemma conf_refl D h : closed D h -> conf D h h.
Proof. intros C. split; [done|apply outside_refl]. Qed.

Lemma closed_pin_next D h p : closed D h -> pin D p -> pin D (next_of h p).
Proof. intros C. destruct p as [l|]; [|done]. apply C. Qed.
Lemma closed_pin_prev D h p : closed D h -> pin D p -> pin D (prev_of h p).
Proof. intros C. destruct p as [l|]; [|done]. apply C. Qed.

Lemma conf_alter D h f l : closed D h -> D l ->
  (forall n, pin D (n_next n) -> pin D (n_prev n) -> pin D (n_next (f n)) /\ pin D (n_prev (f n))) ->
  conf D h (alter f l h).
Proof.
  intros C Dl Hf. split.
  - intros x Dx. unfold next_of, prev_of. rewrite !field_alter. destruct (C x Dx) as [C1 C2].
    unfold next_of, prev_of, field in C1, C2.
    case_decide; [|done]. subst. simpl. destruct (h !! l) as [n|]; [by apply Hf|done].
  - split; [by rewrite alter_length|]. intros x Hx. rewrite list_lookup_alter_ne; [done|]. intros ->. done.
Qed.
Lemma conf_set_next D h n nn : closed D h -> pin D n -> pin D nn -> conf D h (set_next h n nn).
Proof.
  intros C P1 P2. destruct n as [l|]; [|by apply conf_refl]. cbn [set_next]. destruct (ptr_eqb _ _); [by apply conf_refl|].
  pose proof (closed_pin_next D h (Some l) C P1) as PN.
  assert (C1 : conf D h (match next_of h (Some l) with Some p => alter (with_prev None) p h | None => h end)).
  { destruct (next_of h (Some l)); [|by apply conf_refl]. apply conf_alter; [done|done|]. intros m; simpl; done. }
  eapply conf_trans; [exact C1|]. apply conf_alter; [apply C1|done|]. intros m; simpl; done.
Qed.
Lemma conf_set_prev D h n nn : closed D h -> pin D n -> pin D nn -> conf D h (set_prev h n nn).
Proof.
  intros C P1 P2. destruct n as [l|]; [|by apply conf_refl]. cbn [set_prev]. destruct (ptr_eqb _ _); [by apply conf_refl|].
  pose proof (closed_pin_prev D h (Some l) C P1) as PN.
  assert (C1 : conf D h (match prev_of h (Some l) with Some p => alter (with_next None) p h | None => h end)).
  { destruct (prev_of h (Some l)); [|by apply conf_refl]. apply conf_alter; [done|done|]. intros m; simpl; done. }
  eapply conf_trans; [exact C1|]. apply conf_alter; [apply C1|done|]. intros m; simpl; done.
Qed.
Lemma conf_set_kind D h n k : closed D h -> pin D n -> conf D h (set_kind h n k).
Proof. intros C P. destruct n; [|by apply conf_refl]. by apply conf_alter. Qed.
Lemma conf_set_text D h n t : closed D h -> pin D n -> conf D h (set_text h n t).
Proof. intros C P. destruct n; [|by apply conf_refl]. by apply conf_alter. Qed.

(** Peels the last set_* off the final heap. *)
Ltac conf_steps :=
  match goal with
  | |- conf ?D ?h ?h => by apply conf_refl
  | |- conf ?D ?h (set_next ?h1 ?n ?nn) =>
    let C := fresh "C" in assert (C : conf D h h1);
    [conf_steps|eapply conf_trans; [exact C|apply conf_set_next; [apply C|auto|auto]]]
  | |- conf ?D ?h (set_prev ?h1 ?n ?nn) =>
    let C := fresh "C" in assert (C : conf D h h1);
    [conf_steps|eapply conf_trans; [exact C|apply conf_set_prev; [apply C|auto|auto]]]
  end.
#[local] Hint Resolve closed_pin_next closed_pin_prev : core.
Lemma pin_none D : pin D None.
Proof. done. Qed.
#[local] Hint Resolve pin_none : core.

Lemma conf_insert_next D h n nn : closed D h -> pin D n -> pin D nn -> conf D h (fst (insert_next h n nn)).
Proof. intros C P1 P2. unfold insert_next. destruct (_ || _); cbn [fst]; conf_steps. Qed.
Lemma conf_insert_prev D h n nn : closed D h -> pin D n -> pin D nn -> conf D h (fst (insert_prev h n nn)).
Proof. intros C P1 P2. unfold insert_prev. destruct (_ || _); cbn [fst]; conf_steps. Qed.
Lemma conf_replace_next D h n nn : closed D h -> pin D n -> pin D nn -> conf D h (fst (replace_next h n nn)).
Proof. intros C P1 P2. unfold replace_next. destruct (_ || _); cbn [fst]; conf_steps. Qed.
Lemma conf_replace_prev D h n nn : closed D h -> pin D n -> pin D nn -> conf D h (fst (replace_prev h n nn)).
Proof. intros C P1 P2. unfold replace_prev. destruct (_ || _); cbn [fst]; conf_steps. Qed.
Lemma conf_take_next D h n : closed D h -> pin D n -> conf D h (fst (take_next h n)).
Proof. intros C P1. unfold take_next. cbn [fst]; conf_steps. Qed.
Lemma conf_take_prev D h n : closed D h -> pin D n -> conf D h (fst (take_prev h n)).
Proof. intros C P1. unfold take_prev. cbn [fst]; conf_steps. Qed.
Lemma conf_remove_next D h n : closed D h -> pin D n -> conf D h (fst (remove_next h n)).
Proof. intros C P1. unfold remove_next. cbn [fst]; conf_steps. Qed.
Lemma conf_remove_prev D h n : closed D h -> pin D n -> conf D h (fst (remove_prev h n)).
Proof. intros C P1. unfold remove_prev. cbn [fst]; conf_steps. Qed.
Lemma conf_isolate D h n : closed D h -> pin D n -> conf D h (isolate h n).
Proof.
  intros C P1. unfold isolate.
  assert (C1 : conf D h (set_next h (prev_of h n) None)) by (apply conf_set_next; auto).
  eapply conf_trans; [exact C1|]. destruct C1 as [C1 _].
  generalize dependent (set_next h (prev_of h n) None). intros h1 C1. conf_steps.
Qed.
Lemma conf_isolate_all D ps : forall h, closed D h -> Forall (pin D) ps -> conf D h (isolate_all h ps).
Proof.
  induction ps as [|p ps IH]; intros h C F; [by apply conf_refl|].
  apply Forall_cons in F as [F1 F2]. assert (C1 : conf D h (isolate h p)) by (by apply conf_isolate).
  eapply conf_trans; [exact C1|]. apply IH; [apply C1|done].
Qed.
Lemma conf_combine D rev_ h n k nns h' r : closed D h -> pin D n -> Forall (pin D) nns ->
  combine rev_ h n k nns = Ok (h', r) -> conf D h h' /\ pin D r.
Proof.
  intros C P F. unfold combine.
  assert (CK : conf D h (set_kind h n k)) by (by apply conf_set_kind).
  destruct nns as [|a rest]; [intros [= <- <-]; done|].
  rewrite combine_loop_spec.
  set (n' := match n with None => a | Some _ => n end).
  assert (P' : pin D n') by (apply Forall_cons in F as [F1 F2]; unfold n'; destruct n; done).
  set (nns' := match n with None => rest | Some _ => a :: rest end).
  assert (F' : Forall (pin D) nns') by (unfold nns'; destruct n; [done|]; by apply Forall_cons in F as [_ F]).
  assert (CI : conf D h (isolate_all (set_kind h n k) (absorbed n' nns'))).
  { eapply conf_trans; [exact CK|]. apply conf_isolate_all; [apply CK|].
    apply Forall_forall. intros p Hp. apply elem_of_list_filter in Hp as [_ Hp]. rewrite Forall_forall in F'. by apply F'. }
  destruct n' as [l|]; [|discriminate]. intros [= <- <-]. split; [|done].
  eapply conf_trans; [exact CI|]. by apply conf_alter; [apply CI| |].
Qed.

(** Allocation: fresh nodes belong to [D]. *)
Definition above (D : loc -> Prop) (b : nat) : Prop := forall x, b <= x -> D x.
Lemma conf_alloc D h nd : closed D h -> above D (length h) -> pin D (n_next nd) -> pin D (n_prev nd) ->
  conf D h (h ++ [nd]).
Proof.
  intros C A P1 P2. split.
  - intros x Dx. destruct (decide (x < length h)) as [L|L].
    + unfold next_of, prev_of. rewrite !field_app by done. by apply C.
    + destruct (decide (x = length h)) as [->|Hx].
      * assert (E : (h ++ [nd]) !! length h = Some nd) by (by rewrite list_lookup_middle).
        unfold next_of, prev_of. by rewrite !(field_lookup _ _ _ _ _ E).
      * unfold next_of, prev_of. rewrite !field_out; [done|..]; unfold valid; rewrite app_length; simpl; lia.
  - split; [rewrite app_length; lia|]. intros x Hx. destruct (decide (x < length h)); [by rewrite lookup_app_l|].
    exfalso. apply Hx, A. lia.
Qed.
Lemma above_mono D b c : b <= c -> above D b -> above D c.
Proof. intros L A x Hx. apply A. lia. Qed.
Lemma conf_new_node D h line t ks : closed D h -> above D (length h) ->
  conf D h (fst (new_node h line t ks)) /\ pin D (Some (snd (new_node h line t ks))).
Proof. intros C A. destruct ks; (split; [by apply conf_alloc|apply A; simpl; lia]). Qed.

Lemma conf_new_nodes_loop D ts : forall h cur line, closed D h -> above D (length h) -> pin D cur ->
  conf D h (new_nodes_loop h cur line ts).
Proof.
  induction ts as [|t r IH]; intros h cur line C A P; [by apply conf_refl|].
  cbn [new_nodes_loop].
  destruct (conf_new_node D h line t [] C A) as [C1 P1]. destruct (new_node h line t []) as [h1 n]. cbn [fst snd] in *.
  assert (C2 : conf D h1 (fst (insert_next h1 cur (Some n)))) by (apply conf_insert_next; [apply C1|done|done]).
  destruct (insert_next h1 cur (Some n)) as [h2 r2]. cbn [fst] in *.
  eapply conf_trans; [exact C1|]. eapply conf_trans; [exact C2|]. apply IH; [apply C2| |].
  - eapply above_mono; [|exact A]. destruct C1 as [_ [? _]], C2 as [_ [? _]]. lia.
  - apply closed_pin_next; [apply C2|done].
Qed.
Lemma conf_new_nodes D h line ts : closed D h -> above D (length h) ->
  conf D h (fst (new_nodes h line ts)) /\ pin D (snd (new_nodes h line ts)).
Proof.
  intros C A. destruct ts as [|t r]; [split; [by apply conf_refl|done]|]. unfold new_nodes.
  destruct (conf_new_node D h line t [] C A) as [C1 P1]. destruct (new_node h line t []) as [h1 n]. cbn [fst snd] in *.
  split; [|done]. eapply conf_trans; [exact C1|]. apply conf_new_nodes_loop; [apply C1| |done].
  eapply above_mono; [|exact A]. apply C1.
Qed.

Lemma conf_deep_copy D f : forall h n p q h' r, closed D h -> above D (length h) -> pin D n -> pin D p -> pin D q ->
  deep_copy f h n p q = Ok (h', r) -> conf D h h' /\ pin D r.
Proof.
  induction f as [|f IH]; intros h n p q h' r C A Pn Pp Pq E.
  { destruct n; [discriminate|]. injection E as <- <-. split; [by apply conf_refl|done]. }
  destruct n as [l|]; [|injection E as <- <-; split; [by apply conf_refl|done]].
  cbn [deep_copy] in E. unfold alloc in E. set (nd := mkNode _ _ _ _ _) in E.
  assert (C1 : conf D h (h ++ [nd])) by (by apply conf_alloc).
  assert (A1 : forall h1, conf D h h1 -> above D (length h1)).
  { intros h1 [_ [L _]]. eapply above_mono; [exact L|exact A]. }
  assert (Dn : D (length h)) by (apply A; lia).
  remember (match p with Some _ => Ok (h ++ [nd], p) | None => deep_copy f (h ++ [nd]) (prev_of (h ++ [nd]) (Some l)) None (Some (length h)) end) as m1 eqn:M1.
  destruct m1 as [[h1 p1]| |]; try discriminate E. cbn [res_bind] in E.
  assert (G1 : conf D h h1 /\ pin D p1).
  { destruct p as [p|]; [injection M1 as -> ->; done|]. symmetry in M1.
    apply IH in M1; [|apply C1|by apply A1|apply closed_pin_prev; [apply C1|done]|done|done].
    destruct M1 as [M1 ?]. split; [by eapply conf_trans|done]. }
  destruct G1 as [G1 Pp1].
  remember (match q with Some _ => Ok (h1, q) | None => deep_copy f h1 (next_of h1 (Some l)) (Some (length h)) None end) as m2 eqn:M2.
  destruct m2 as [[h2 q1]| |]; try discriminate E. cbn [res_bind] in E.
  assert (G2 : conf D h h2 /\ pin D q1).
  { destruct q as [q|]; [injection M2 as -> ->; done|]. symmetry in M2.
    apply IH in M2; [|apply G1|by apply A1|apply closed_pin_next; [apply G1|done]|done|done].
    destruct M2 as [M2 ?]. split; [by eapply conf_trans|done]. }
  destruct G2 as [G2 Pq1]. injection E as <- <-. split; [|done].
  eapply conf_trans; [exact G2|].
  assert (C3 : conf D h2 (alter (with_prev p1) (length h) h2)).
  { apply conf_alter; [apply G2|done|]. intros; simpl; done. }
  eapply conf_trans; [exact C3|]. apply conf_alter; [apply C3|done|]. intros; simpl; done.
Qed.
Lemma conf_copy D h n rel h' r : closed D h -> above D (length h) -> pin D n ->
  copy h n rel = Ok (h', r) -> conf D h h' /\ pin D r.
Proof.
  intros C A P E. destruct n as [l|]; [|injection E as <- <-; split; [by apply conf_refl|done]].
  unfold copy in E. destruct rel; [by apply (conf_deep_copy D) in E|].
  injection E as <- <-. split; [by apply conf_alloc|]. apply A. lia.
Qed.

(** Every call confined to [D] stays in [D], and its results are in [D]. *)
Lemma exec_conf D h o h' rs : closed D h -> above D (length h) -> Forall (pin D) (args o) ->
  exec h o = Ok (h', rs) -> conf D h h' /\ Forall (pin D) rs.
Proof.
  intros C A F E.
  destruct o; cbn [exec args] in *; rewrite ?Forall_cons in F; try (destruct F as [L1 L2]); try (destruct L2 as [L2 _]);
  try (injection E as <- <-).
  - destruct (conf_new_node D h line text kinds C A) as [G1 G2]. destruct (new_node h line text kinds). injection E as <- <-.
    split; [done|]. by repeat constructor.
  - destruct (conf_new_nodes D h line texts C A) as [G1 G2]. split; [done|]. by repeat constructor.
  - destruct (copy h n rel) as [[h1 r]| |] eqn:CC; try discriminate. injection E as <- <-.
    apply (conf_copy D) in CC as [? ?]; [|done..]. split; [done|]. by repeat constructor.
  - split; [by apply conf_insert_prev|]. unfold insert_prev. destruct (_ || _); repeat constructor; simpl; auto.
  - split; [by apply conf_insert_next|]. unfold insert_next. destruct (_ || _); repeat constructor; simpl; auto.
  - split; [by apply conf_replace_prev|]. unfold replace_prev. destruct (_ || _); repeat constructor; simpl; auto.
  - split; [by apply conf_replace_next|]. unfold replace_next. destruct (_ || _); repeat constructor; simpl; auto.
  - split; [by apply conf_take_prev|]. repeat constructor; simpl; auto.
  - split; [by apply conf_take_next|]. repeat constructor; simpl; auto.
  - split; [by apply conf_remove_prev|]. repeat constructor; simpl; auto.
  - split; [by apply conf_remove_next|]. repeat constructor; simpl; auto.
  - split; [by apply conf_isolate|]. constructor.
  - unfold combine_prev in E. destruct (combine true h n k nns) as [[h1 r]| |] eqn:CC; try discriminate. injection E as <- <-.
    apply (conf_combine D) in CC as [? ?]; [|done..]. split; [done|]. by repeat constructor.
  - unfold combine_next in E. destruct (combine false h n k nns) as [[h1 r]| |] eqn:CC; try discriminate. injection E as <- <-.
    apply (conf_combine D) in CC as [? ?]; [|done..]. split; [done|]. by repeat constructor.
  - split; [by apply conf_set_kind|constructor].
  - split; [by apply conf_set_text|constructor].
Qed.
