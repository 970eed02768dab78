(** Chains: basic theory. *)
From Verif Require Export NodeInv.

Definition hd_ptr (ls : list loc) (q : ptr) : ptr := match ls with [] => q | l :: _ => Some l end.
Definition last_ptr (ls : list loc) (p : ptr) : ptr := match last ls with Some l => Some l | None => p end.

Lemma last_ptr_cons l ls p : last_ptr (l :: ls) p = last_ptr ls (Some l).
Proof. unfold last_ptr. destruct ls as [|m r]; [done|]. change (last (l :: m :: r)) with (last (m :: r)).
  destruct (last (m :: r)) eqn:E; [done|]. apply last_None in E. discriminate. Qed.
Lemma last_ptr_snoc ls l p : last_ptr (ls ++ [l]) p = Some l.
Proof. unfold last_ptr. by rewrite last_snoc. Qed.
Lemma last_ptr_app xs ys p : last_ptr (xs ++ ys) p = last_ptr ys (last_ptr xs p).
Proof. revert p. induction xs as [|x xs IH]; intros p; [done|]. simpl app. rewrite !last_ptr_cons. apply IH. Qed.
Lemma last_ptr_nil ls : last_ptr ls None = None -> ls = [].
Proof. unfold last_ptr. destruct (last ls) eqn:E; [discriminate|]. intros _. by apply last_None. Qed.
Lemma last_ptr_in ls p l : last_ptr ls p = Some l -> l ∈ ls \/ p = Some l.
Proof. unfold last_ptr. destruct (last ls) eqn:E; [|auto]. intros [= ->]. left.
  apply last_Some in E as [l' ->]. set_solver. Qed.

Lemma seg_app h p xs ys q :
  seg h p (xs ++ ys) q <-> seg h p xs (hd_ptr ys q) /\ seg h (last_ptr xs p) ys q.
Proof.
  revert p. induction xs as [|x xs IH]; intros p.
  - simpl. unfold last_ptr. simpl. tauto.
  - rewrite last_ptr_cons. simpl app. cbn [seg]. rewrite IH.
    destruct xs as [|x' xs]; simpl app; [destruct ys; simpl; tauto|]. tauto.
Qed.

Lemma seg_valid h p ls q l : seg h p ls q -> l ∈ ls -> valid h l.
Proof.
  revert p. induction ls as [|x r IH]; intros p; [intros _ H; inversion H|].
  intros (V & _ & _ & S) [->|H]%elem_of_cons; eauto.
Qed.

Lemma seg_frame h h' p ls q : length h <= length h' ->
  (forall x, x ∈ ls -> same_links h h' x) -> seg h p ls q -> seg h' p ls q.
Proof.
  intros L. revert p. induction ls as [|x r IH]; intros p F; [done|].
  intros (V & P & N & S). destruct (F x) as [EN EP]; [left|].
  repeat split; [unfold valid in *; lia|congruence|congruence|].
  apply IH; [|exact S]. intros y Hy. apply F. by right.
Qed.

(** Following Next() from [p] goes through [ls] and arrives at [q]. *)
Fixpoint nseg (h : heap) (p : ptr) (ls : list loc) (q : ptr) : Prop :=
  match ls with
  | [] => p = q
  | l :: r => p = Some l /\ nseg h (next_of h (Some l)) r q
  end.
Fixpoint pseg (h : heap) (p : ptr) (ls : list loc) (q : ptr) : Prop :=
  match ls with
  | [] => p = q
  | l :: r => p = Some l /\ pseg h (prev_of h (Some l)) r q
  end.

Lemma nseg_app h p xs ys q : nseg h p (xs ++ ys) q <-> exists m, nseg h p xs m /\ nseg h m ys q.
Proof.
  revert p. induction xs as [|x xs IH]; intros p; simpl.
  - split; [eauto|intros (m & -> & H); exact H].
  - rewrite IH. split; [intros (-> & m & ? & ?); eauto|intros (m & [-> ?] & ?); eauto].
Qed.
Lemma pseg_app h p xs ys q : pseg h p (xs ++ ys) q <-> exists m, pseg h p xs m /\ pseg h m ys q.
Proof.
  revert p. induction xs as [|x xs IH]; intros p; simpl.
  - split; [eauto|intros (m & -> & H); exact H].
  - rewrite IH. split; [intros (-> & m & ? & ?); eauto|intros (m & [-> ?] & ?); eauto].
Qed.
Lemma nseg_frame h h' p ls q :
  (forall x, x ∈ ls -> next_of h' (Some x) = next_of h (Some x)) -> nseg h p ls q -> nseg h' p ls q.
Proof.
  revert p. induction ls as [|x r IH]; intros p F; [done|]. intros [-> S]. split; [done|].
  rewrite F by left. apply IH; [|done]. intros y Hy. apply F. by right.
Qed.
Lemma pseg_frame h h' p ls q :
  (forall x, x ∈ ls -> prev_of h' (Some x) = prev_of h (Some x)) -> pseg h p ls q -> pseg h' p ls q.
Proof.
  revert p. induction ls as [|x r IH]; intros p F; [done|]. intros [-> S]. split; [done|].
  rewrite F by left. apply IH; [|done]. intros y Hy. apply F. by right.
Qed.

Lemma nseg_hd h p ls q : nseg h p ls q -> p = hd_ptr ls q.
Proof. destruct ls; simpl; [done|]. by intros [-> _]. Qed.

Lemma seg_nseg h p ls q : seg h p ls q -> nseg h (hd_ptr ls q) ls q.
Proof.
  revert p. induction ls as [|x r IH]; intros p; [done|]. intros (V & P & N & S). split; [done|].
  rewrite N. apply IH in S. destruct r; exact S.
Qed.
Lemma seg_pseg h p ls q : seg h p ls q -> pseg h (last_ptr ls p) (reverse ls) p.
Proof.
  revert p q. induction ls as [|x r IH] using rev_ind; intros p q.
  - intros _. done.
  - intros S. rewrite reverse_snoc, last_ptr_snoc. apply seg_app in S as [S1 (V & P & N & _)].
    split; [done|]. rewrite P. eapply IH; eauto.
Qed.

(** On a well-formed heap, Next() alone determines a chain. *)
Lemma nseg_seg h ls p q : wf h -> (forall l, l ∈ ls -> valid h l) ->
  match ls with [] => True | l :: _ => prev_of h (Some l) = p end ->
  nseg h (hd_ptr ls q) ls q -> seg h p ls q.
Proof.
  intros W. revert p. induction ls as [|x r IH]; intros p V P; [done|].
  intros [_ S]. pose proof (nseg_hd _ _ _ _ S) as E.
  split; [apply V; left|]. split; [done|]. split; [by destruct r|].
  apply IH; [intros l Hl; apply V; by right| |by rewrite <- E].
  destruct r as [|y r]; [done|]. simpl in E. by apply (wf_sym _ W).
Qed.

Lemma chain_intro h ls : wf h -> (forall l, l ∈ ls -> valid h l) ->
  match ls with [] => True | l :: _ => prev_of h (Some l) = None end ->
  nseg h (hd_ptr ls None) ls None -> chain h ls.
Proof. apply nseg_seg. Qed.

(** Following Next() to nil is deterministic. *)
Lemma nseg_det h p ls ms : nseg h p ls None -> nseg h p ms None -> ls = ms.
Proof.
  revert p ms. induction ls as [|x r IH]; intros p ms; simpl.
  - intros ->. destruct ms as [|y s]; [done|]. intros [[=] _].
  - intros [-> S]. destruct ms as [|y s]; simpl; [intros [=]|].
    intros [[= ->] T]. f_equal. eauto.
Qed.
Lemma nseg_suffix h p xs x ys q : nseg h p (xs ++ x :: ys) q -> nseg h (Some x) (x :: ys) q.
Proof. intros (m & _ & S)%nseg_app. destruct S as [-> S]. done. Qed.

Lemma nseg_NoDup h p ls : nseg h p ls None -> NoDup ls.
Proof.
  revert p. induction ls as [|x r IH]; intros p; [constructor|].
  intros S. constructor; [|destruct S; eauto].
  intros (r1 & r2 & ->)%elem_of_list_split.
  destruct S as [-> S].
  assert (E : x :: r2 = x :: r1 ++ x :: r2).
  { apply (nseg_det h (Some x)); [|done].
    apply (nseg_suffix h _ r1) in S. exact S. }
  apply (f_equal length) in E. simpl in E. rewrite app_length in E. simpl in E. lia.
Qed.
Lemma chain_NoDup h ls : chain h ls -> NoDup ls.
Proof. intros S%seg_nseg. by eapply nseg_NoDup. Qed.
Lemma seg_NoDup h p ls : seg h p ls None -> NoDup ls.
Proof. intros S%seg_nseg. by eapply nseg_NoDup. Qed.

Lemma seg_next h p xs x ys q : seg h p (xs ++ x :: ys) q -> next_of h (Some x) = hd_ptr ys q.
Proof. intros [_ (_ & _ & N & _)]%seg_app. by destruct ys. Qed.
Lemma seg_prev h p xs x ys q : seg h p (xs ++ x :: ys) q -> prev_of h (Some x) = last_ptr xs p.
Proof. by intros [_ (_ & P & N & _)]%seg_app. Qed.

Lemma seg_next_in h p ls x y : seg h p ls None -> x ∈ ls -> next_of h (Some x) = Some y -> y ∈ ls.
Proof.
  intros S (r1 & r2 & ->)%elem_of_list_split E. rewrite (seg_next _ _ _ _ _ _ S) in E.
  destruct r2; simplify_eq/=. set_solver.
Qed.
Lemma chain_next_in h ls x y : chain h ls -> x ∈ ls -> next_of h (Some x) = Some y -> y ∈ ls.
Proof. apply seg_next_in. Qed.
Lemma chain_prev_in h ls x y : chain h ls -> x ∈ ls -> prev_of h (Some x) = Some y -> y ∈ ls.
Proof.
  intros S (r1 & r2 & ->)%elem_of_list_split E. rewrite (seg_prev _ _ _ _ _ _ S) in E.
  apply last_ptr_in in E as [?|[=]]. set_solver.
Qed.

(** Two chains with a common node are the same chain. *)
Lemma chain_unique h ls ms x : chain h ls -> chain h ms -> x ∈ ls -> x ∈ ms -> ls = ms.
Proof.
  intros S T (r1 & r2 & ->)%elem_of_list_split (s1 & s2 & ->)%elem_of_list_split.
  assert (A : x :: r2 = x :: s2).
  { apply (nseg_det h (Some x)).
    - apply seg_nseg in S. by eapply nseg_suffix.
    - apply seg_nseg in T. by eapply nseg_suffix. }
  assert (B : reverse r1 = reverse s1).
  { pose proof (seg_prev _ _ _ _ _ _ S) as P1. pose proof (seg_prev _ _ _ _ _ _ T) as P2.
    apply seg_app in S as [S _]. apply seg_app in T as [T _].
    apply seg_pseg in S. apply seg_pseg in T. rewrite <- P1 in S. rewrite <- P2 in T.
    revert S T. generalize (prev_of h (Some x)). clear. generalize (reverse r1), (reverse s1).
    intros a. induction a as [|u a IH]; intros b p; simpl.
    - intros ->. destruct b; simpl; [done|]. intros [[=] _].
    - intros [-> S]. destruct b; simpl; [intros [=]|]. intros [[= ->] T]. f_equal; eauto. }
  apply (f_equal reverse) in B. rewrite !reverse_involutive in B. congruence.
Qed.

(** ** Reachability along Next() *)

Lemma nseg_rtc h p xs x ys q y : nseg h p (xs ++ x :: ys) q -> y ∈ x :: ys -> rtc (nxt h) x y.
Proof.
  intros S%nseg_suffix. clear p xs. revert x S. induction ys as [|z r IH]; intros x S.
  - intros ->%elem_of_list_singleton. apply rtc_refl.
  - intros [->|H]%elem_of_cons; [apply rtc_refl|]. destruct S as [_ [E S]].
    eapply rtc_l; [exact E|]. eapply (IH z); [|done]. by split.
Qed.

Lemma nseg_no_cycle h p ls x : nseg h p ls None -> x ∈ ls -> ~ tc (nxt h) x x.
Proof.
  intros S (r1 & r2 & ->)%elem_of_list_split C.
  apply nseg_suffix in S. clear p r1.
  (* every tc-successor of x lies in r2 *)
  assert (H : forall y, tc (nxt h) x y -> y ∈ r2).
  { assert (H1 : forall a b, tc (nxt h) a b -> forall r, nseg h (Some a) (a :: r) None -> b ∈ r).
    { clear. induction 1 as [a b E|a b c E _ IH]; intros r [_ S]; unfold nxt in E; rewrite E in S.
      - destruct r; simpl in S; [discriminate|]. destruct S as [[= ->] _]. left.
      - destruct r as [|d r]; simpl in S; [discriminate|]. destruct S as [[= <-] S].
        right. apply IH. by split. }
    intros y Hy. by apply (H1 x y Hy). }
  specialize (H x C). apply nseg_NoDup in S. inversion S. contradiction.
Qed.

(** Acyclic: no node comes back to itself by following Next(). *)

(** The path from [l] along a partial function, up to a length. *)
Fixpoint follow (f : nat) (nx : loc -> ptr) (p : ptr) : list loc :=
  match f, p with
  | S f, Some l => l :: follow f nx (nx l)
  | _, _ => []
  end.

Lemma follow_rtc f h p l y : p = Some l -> y ∈ follow f (fun l => next_of h (Some l)) p -> rtc (nxt h) l y.
Proof.
  revert p l. induction f as [|f IH]; intros p l ->; simpl; [by intros H%elem_of_nil|].
  intros [->|H]%elem_of_cons; [apply rtc_refl|].
  destruct (next_of h (Some l)) as [m|] eqn:E.
  - eapply rtc_l; [exact E|]. by apply (IH (Some m) m).
  - destruct f; simpl in H; by apply elem_of_nil in H.
Qed.

Lemma follow_NoDup f h p : acyclic h -> NoDup (follow f (fun l => next_of h (Some l)) p).
Proof.
  intros A. revert p. induction f as [|f IH]; intros [l|]; simpl; try constructor; [|apply IH].
  intros H. destruct (next_of h (Some l)) as [m|] eqn:E.
  - eapply follow_rtc in H; [|done]. apply (A l). eapply tc_rtc_r; [by apply tc_once|done].
  - destruct f; simpl in H; by apply elem_of_nil in H.
Qed.

Lemma NoDup_bound (ls : list nat) n : NoDup ls -> (forall x, x ∈ ls -> x < n) -> length ls <= n.
Proof.
  intros ND H. rewrite <- (seq_length n 0). apply submseteq_length, NoDup_submseteq; [done|].
  intros x Hx. apply elem_of_seq. specialize (H x Hx). lia.
Qed.

(** From an existing node of a well-formed acyclic heap, Next() reaches nil. *)
Lemma acyclic_nseg h l : wf h -> acyclic h -> valid h l ->
  exists ls, nseg h (Some l) ls None /\ (forall x, x ∈ ls -> valid h x) /\ length ls <= length h.
Proof.
  intros W A V.
  set (ls := follow (S (length h)) (fun l => next_of h (Some l)) (Some l)).
  assert (HV : forall f p x, live h p -> x ∈ follow f (fun l => next_of h (Some l)) p -> valid h x).
  { induction f as [|f IH]; intros [y|] x L; simpl; try (by intros H%elem_of_nil).
    intros [->|H]%elem_of_cons; [done|]. eapply IH; [|exact H].
    destruct (next_of h (Some y)) eqn:E; simpl; [|done]. by eapply (wf_next_valid _ W). }
  assert (B : length ls <= length h).
  { apply NoDup_bound; [by apply follow_NoDup|]. intros x. apply HV. exact V. }
  exists ls. split; [|split; [intros x Hx; eapply HV; [|exact Hx]; exact V|exact B]].
  assert (F : forall f p, length (follow f (fun l => next_of h (Some l)) p) < f ->
    nseg h p (follow f (fun l => next_of h (Some l)) p) None).
  { induction f as [|f IH]; intros [y|]; simpl; try lia; [|done]. intros H. split; [done|].
    apply IH. lia. }
  apply F. fold ls. lia.
Qed.
