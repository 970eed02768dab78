(** Acyclicity of links. *)
From Verif Require Export NodeOps2.

Definition acyc {A} (R : A -> A -> Prop) : Prop := forall a, ~ tc R a a.
Definition addE (R : loc -> loc -> Prop) (n m : loc) : loc -> loc -> Prop :=
  fun a b => R a b \/ (a = n /\ b = m).

Lemma tc_mono {A} (R S : A -> A -> Prop) : (forall a b, R a b -> S a b) -> forall a b, tc R a b -> tc S a b.
Proof. intros H a b. induction 1; [apply tc_once; auto|eapply tc_l; eauto]. Qed.
Lemma rtc_mono {A} (R S : A -> A -> Prop) : (forall a b, R a b -> S a b) -> forall a b, rtc R a b -> rtc S a b.
Proof. intros H a b. induction 1; [apply rtc_refl|eapply rtc_l; eauto]. Qed.
Lemma acyc_mono {A} (R S : A -> A -> Prop) : (forall a b, R a b -> S a b) -> acyc S -> acyc R.
Proof. intros H C a T. apply (C a). by eapply tc_mono. Qed.

Lemma addE_rtc R n m x y : rtc (addE R n m) x y -> rtc R x y \/ rtc R x n.
Proof.
  induction 1 as [x|x y z [E|[-> ->]] _ IH]; [left; apply rtc_refl| |right; apply rtc_refl].
  destruct IH; [left|right]; eapply rtc_l; eauto.
Qed.
Lemma acyc_add R n m : acyc R -> ~ rtc R m n -> acyc (addE R n m).
Proof.
  intros C H a T.
  assert (G : forall a b, tc (addE R n m) a b -> tc R a b \/ (rtc R a n /\ rtc R m b)).
  { clear a T. induction 1 as [a b [E|[-> ->]]|a b c E T IH].
    - left. by apply tc_once.
    - right. split; apply rtc_refl.
    - destruct E as [E|[-> ->]].
      + destruct IH as [IH|[I1 I2]]; [left; by eapply tc_l|right; split; [by eapply rtc_l|done]].
      + destruct IH as [IH|[I1 I2]]; [right; split; [apply rtc_refl|by apply tc_rtc]|contradiction]. }
  destruct (G _ _ T) as [T'|[T1 T2]]; [by apply (C a)|]. apply H. by etrans.
Qed.

(** ** Existence of chains *)
Lemma acyclic_chain h l : wf h -> acyclic h -> valid h l ->
  exists xs ys, chain h (xs ++ l :: ys).
Proof.
  intros W A V. destruct (acyclic_nseg h l W A V) as (ls & S & Vs & _).
  destruct ls as [|x ys]; [simpl in S; discriminate|]. destruct S as [[= <-] S].
  assert (G : forall k a ms, length h - length ms <= k -> nseg h (Some a) (a :: ms) None ->
     (forall x, x ∈ a :: ms -> valid h x) ->
     exists zs, chain h (zs ++ a :: ms)).
  { induction k as [|k IH]; intros a ms Hk Sa Va.
    - exfalso. pose proof (NoDup_bound (a :: ms) (length h) (nseg_NoDup _ _ _ Sa) Va) as B. simpl in B. lia.
    - destruct (prev_of h (Some a)) as [p|] eqn:E.
      + apply (wf_sym _ W) in E as E'.
        assert (Sp : nseg h (Some p) (p :: a :: ms) None) by (split; [done|]; rewrite E'; exact Sa).
        assert (Vp : forall x, x ∈ p :: a :: ms -> valid h x).
        { intros y [->|Hy]%elem_of_cons; [by eapply (wf_prev_valid _ W)|auto]. }
        pose proof (NoDup_bound (a :: ms) (length h) (nseg_NoDup _ _ _ Sa) Va) as B. simpl in B.
        destruct (IH p (a :: ms)) as [zs Z]; [simpl; lia|done|done|].
        exists (zs ++ [p]). rewrite <- app_assoc. exact Z.
      + exists []. apply chain_intro; auto. }
  destruct (G (length h) l ys) as [zs Z]; [lia|by split|done|]. eauto.
Qed.

Lemma tc_forward h a b r : tc (nxt h) a b -> nseg h (Some a) (a :: r) None -> b ∈ r.
Proof.
  intros T. revert r. induction T as [a b E|a b c E _ IH]; intros r [_ S]; unfold nxt in E; rewrite E in S.
  - destruct r; simpl in S; [discriminate|]. destruct S as [[= ->] _]. left.
  - destruct r as [|d r]; simpl in S; [discriminate|]. destruct S as [[= <-] S].
    right. apply IH. by split.
Qed.

(** [a] strictly before [b]. *)
Lemma tc_chain h a b : wf h -> acyclic h -> valid h a -> tc (nxt h) a b ->
  exists us ws ys, chain h (us ++ a :: ws ++ b :: ys).
Proof.
  intros W A V T. destruct (acyclic_chain h a W A V) as (us & vs & C).
  assert (S : nseg h (Some a) (a :: vs) None) by (eapply nseg_suffix, seg_nseg, C).
  pose proof (tc_forward _ _ _ _ T S) as H. apply elem_of_list_split in H as (ws & ys & ->). eauto.
Qed.
Lemma chain_tc h us a ws b ys : chain h (us ++ a :: ws ++ b :: ys) -> tc (nxt h) a b.
Proof.
  intros C%seg_nseg. apply nseg_suffix in C.
  revert a C. clear us. induction ws as [|w ws IH]; intros a [_ S].
  - destruct S as [E _]. by apply tc_once.
  - destruct S as [E S]. eapply tc_l; [exact E|]. apply IH. by split.
Qed.

(** ** Preservation *)
Section acyc.
Context (h : heap) (W : wf h) (A : acyclic h).

Lemma acyclic_sub h' : (forall a b, next_of h' (Some a) = Some b -> next_of h (Some a) = Some b) -> acyclic h'.
Proof. intros H. eapply acyc_mono; [|exact A]. exact H. Qed.

Lemma acyclic_same h' : (forall x, same_links h h' x) -> acyclic h'.
Proof. intros H. apply acyclic_sub. intros a b. by rewrite (proj1 (H a)). Qed.

Lemma acyclic_remove_next n : live h n -> acyclic (fst (remove_next h n)).
Proof.
  destruct n as [n|]; [|done]. intros V. apply acyclic_sub. intros a b.
  rewrite (proj1 (remove_next_links h n W V)). by case_decide.
Qed.
Lemma acyclic_remove_prev n : live h n -> acyclic (fst (remove_prev h n)).
Proof.
  destruct n as [n|]; [|done]. intros V. apply acyclic_sub. intros a b.
  rewrite (proj1 (remove_prev_links h n W V)). by case_decide.
Qed.
Lemma acyclic_isolate n : live h n -> acyclic (isolate h n).
Proof.
  destruct n as [n|]; [|done]. intros V. apply acyclic_sub. intros a b.
  rewrite (proj1 (isolate_links h n W V)). by repeat case_decide.
Qed.

(** Removing a node from between its neighbours. *)
Lemma acyc_bypass n m c : next_of h (Some n) = Some m -> next_of h (Some m) = Some c ->
  acyc (addE (fun a b => nxt h a b) n c).
Proof.
  intros E1 E2. apply acyc_add; [exact A|]. intros H. apply (A n).
  eapply tc_rtc_r; [|exact H]. eapply tc_l; [exact E1|]. by apply tc_once.
Qed.
Lemma acyclic_take_next n : live h n -> acyclic (fst (take_next h n)).
Proof.
  destruct n as [n|]; [|done]. intros V.
  destruct (next_of h (Some n)) as [m|] eqn:E; [|apply acyclic_same, take_next_none; auto].
  pose proof (proj1 (take_next_links h n m W V E)) as N.
  destruct (next_of h (Some m)) as [c|] eqn:E2.
  - eapply acyc_mono; [|eapply acyc_bypass; [exact E|exact E2]].
    intros a b. unfold nxt. rewrite N. repeat case_decide; intros; simplify_eq; unfold addE, nxt; auto.
  - apply acyclic_sub. intros a b. rewrite N. repeat case_decide; congruence.
Qed.
Lemma acyclic_take_prev n : live h n -> acyclic (fst (take_prev h n)).
Proof.
  destruct n as [n|]; [|done]. intros V.
  destruct (prev_of h (Some n)) as [m|] eqn:E; [|apply acyclic_same, take_prev_none; auto].
  pose proof (proj1 (take_prev_links h n m W V E)) as N. apply (wf_sym _ W) in E.
  destruct (prev_of h (Some m)) as [c|] eqn:E2.
  - apply (wf_sym _ W) in E2.
    eapply acyc_mono; [|eapply acyc_bypass; [exact E2|exact E]].
    intros a b. unfold nxt. rewrite N. repeat case_decide; intros; simplify_eq; unfold addE, nxt; auto.
    right. split; [|done]. eapply (inj_wf h W); eauto.
  - apply acyclic_sub. intros a b. rewrite N. repeat case_decide; try congruence.
    sym_sat W. congruence.
Qed.

(** Putting a detached node between [n] and its successor. *)
Lemma acyc_insert n nn h' :
  n <> nn -> next_of h (Some n) <> Some nn ->
  (forall a b, next_of h' (Some a) = Some b ->
     (next_of h (Some a) = Some b /\ a <> nn /\ b <> nn) \/ (a = n /\ b = nn) \/
     (a = nn /\ next_of h (Some n) = Some b)) ->
  acyclic h'.
Proof.
  intros Hne Hx H.
  set (R := fun a b => nxt h a b /\ a <> nn /\ b <> nn).
  assert (RA : acyc R) by (eapply acyc_mono; [|exact A]; intros a b Hab; apply Hab).
  assert (Rin : forall x, x <> nn -> ~ rtc R x nn).
  { intros x Hxn Hr. destruct (rtc_inv_r _ _ Hr) as [->|(z & _ & [_ [_ ?]])]; done. }
  assert (Rout : forall b, ~ R nn b) by (intros b [_ [? _]]; done).
  destruct (next_of h (Some n)) as [c|] eqn:E.
  - assert (Hc : c <> nn) by congruence.
    apply (acyc_mono _ (addE (addE R nn c) n nn)).
    { intros a b Hab. apply H in Hab. unfold addE, R, nxt. naive_solver. }
    apply acyc_add; [apply acyc_add; [exact RA|by apply Rin]|].
    intros Hr. apply addE_rtc in Hr as Hr'.
    inversion Hr as [|? y ? Hy Hr2]; [congruence|subst].
    destruct Hy as [Hy|[_ ->]]; [by apply Rout in Hy|].
    apply addE_rtc in Hr2 as [Hr2|Hr2]; [|by apply Rin in Hr2].
    apply (A n). eapply tc_rtc_r; [by apply tc_once|]. eapply rtc_mono; [|exact Hr2]. intros a b Hab; apply Hab.
  - apply (acyc_mono _ (addE R n nn)).
    { intros a b Hab. apply H in Hab. unfold addE, R, nxt. naive_solver. }
    apply acyc_add; [exact RA|]. intros Hr. inversion Hr as [|? y ? Hy Hr2]; [congruence|subst].
    by apply Rout in Hy.
Qed.

Lemma acyclic_insert_next n nn : live h n -> live h nn -> acyclic (fst (insert_next h n nn)).
Proof.
  intros V1 V2.
  destruct (decide (n = nn \/ next_of h n = nn)) as [D|D]; [by rewrite insert_next_noop|].
  destruct n as [n|], nn as [nn|].
  - assert (n <> nn) by (intros ->; tauto).
    pose proof (proj1 (insert_next_links h n nn W V1 V2 ltac:(done) ltac:(tauto))) as N.
    apply (acyc_insert n nn); [done|tauto|]. intros a b. rewrite N.
    repeat case_decide; intros; simplify_eq; auto. left. split_and!; congruence.
  - apply acyclic_sub. intros a b. rewrite (proj1 (insert_next_nil_arg_links h n W V1)). by case_decide.
  - apply acyclic_sub. intros a b. rewrite (proj1 (insert_next_nil_recv_links h nn W V2)). by repeat case_decide.
  - done.
Qed.
Lemma acyclic_insert_prev n nn : live h n -> live h nn -> acyclic (fst (insert_prev h n nn)).
Proof.
  intros V1 V2.
  destruct (decide (n = nn \/ prev_of h n = nn)) as [D|D]; [by rewrite insert_prev_noop|].
  destruct n as [n|], nn as [nn|].
  - assert (n <> nn) by (intros ->; tauto).
    pose proof (proj1 (insert_prev_links h n nn W V1 V2 ltac:(done) ltac:(tauto))) as N.
    destruct (prev_of h (Some n)) as [p|] eqn:E.
    + assert (p <> nn) by (intros ->; tauto). apply (wf_sym _ W) in E as E'.
      apply (acyc_insert p nn); [done|congruence|]. intros a b. rewrite N.
      repeat case_decide; intros; simplify_eq; auto 6; sym_sat W; simplify_eq; auto 6.
      left. split_and!; congruence.
    + apply (acyc_mono _ (addE (fun a b => nxt h a b /\ b <> nn /\ a <> nn) nn n)).
      { intros a b. unfold addE, nxt. rewrite N. repeat case_decide; intros; simplify_eq; auto. left. split_and!; congruence. }
      apply acyc_add; [eapply acyc_mono; [|exact A]; intros a b Hab; apply Hab|].
      intros Hr. destruct (rtc_inv_r _ _ Hr) as [->|(z & _ & [_ [? _]])]; congruence.
  - apply acyclic_sub. intros a b. rewrite (proj1 (insert_prev_nil_arg_links h n W V1)). by case_decide.
  - apply acyclic_sub. intros a b. rewrite (proj1 (insert_prev_nil_recv_links h nn W V2)). by repeat case_decide.
  - done.
Qed.

(** ReplaceNext is the only way to lose acyclicity, and only in one case. *)
Lemma acyclic_replace_next n nn : valid h n -> valid h nn ->
  (acyclic (fst (replace_next h (Some n) (Some nn))) <-> ~ tc (nxt h) nn n).
Proof.
  intros V1 V2. split.
  - intros A' T. destruct (tc_chain h nn n W A V2 T) as (us & ws & ys & C).
    pose proof (replace_next_before h W n nn us ws ys C) as G.
    destruct (replace_next h (Some n) (Some nn)) as [h' r]. cbn [fst] in *. destruct G as (G & _).
    apply (A' nn). 
    clear -G. assert (H : forall ws a b c, nseg h' (Some a) (a :: ws ++ [b]) (Some c) -> tc (nxt h') a c).
    { clear. induction ws as [|w ws IH]; intros a b c [_ S]; simpl in S.
      - destruct S as [E1 E2]. eapply tc_l; [exact E1|]. by apply tc_once.
      - destruct S as [E1 S]. eapply tc_l; [exact E1|]. eapply IH. split; [done|exact S]. }
    by eapply H.
  - intros NT.
    destruct (decide (n = nn \/ next_of h (Some n) = Some nn)) as [D|D].
    { rewrite replace_next_noop; [done|]. destruct D as [->|]; auto. }
    assert (n <> nn) by (intros ->; tauto).
    pose proof (proj1 (replace_next_links h n nn W V1 V2 ltac:(done) ltac:(tauto))) as N.
    eapply (acyc_mono _ (addE (nxt h) n nn)).
    { intros a b. unfold addE, nxt. rewrite N. repeat case_decide; intros; simplify_eq; auto. }
    apply acyc_add; [exact A|]. intros Hr. apply rtc_tc in Hr as [->|Hr]; [done|contradiction].
Qed.
Lemma acyclic_replace_prev n nn : valid h n -> valid h nn ->
  (acyclic (fst (replace_prev h (Some n) (Some nn))) <-> ~ tc (nxt h) n nn).
Proof.
  intros V1 V2. split.
  - intros A' T. destruct (tc_chain h n nn W A V1 T) as (us & ws & ys & C).
    pose proof (replace_prev_after h W n nn us ws ys C) as G.
    destruct (replace_prev h (Some n) (Some nn)) as [h' r]. cbn [fst] in *. destruct G as (G & _).
    apply (A' n).
    clear -G. assert (H : forall ws a b c, nseg h' (Some a) (a :: ws ++ [b]) (Some c) -> tc (nxt h') a c).
    { clear. induction ws as [|w ws IH]; intros a b c [_ S]; simpl in S.
      - destruct S as [E1 E2]. eapply tc_l; [exact E1|]. by apply tc_once.
      - destruct S as [E1 S]. eapply tc_l; [exact E1|]. eapply IH. split; [done|exact S]. }
    by eapply H.
  - intros NT.
    destruct (decide (n = nn \/ prev_of h (Some n) = Some nn)) as [D|D].
    { rewrite replace_prev_noop; [done|]. destruct D as [->|]; auto. }
    assert (n <> nn) by (intros ->; tauto).
    pose proof (proj1 (replace_prev_links h n nn W V1 V2 ltac:(done) ltac:(tauto))) as N.
    eapply (acyc_mono _ (addE (nxt h) nn n)).
    { intros a b. unfold addE, nxt. rewrite N. repeat case_decide; intros; simplify_eq; auto. }
    apply acyc_add; [exact A|]. intros Hr. apply rtc_tc in Hr as [->|Hr]; [done|contradiction].
Qed.
End acyc.
