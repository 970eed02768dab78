(** The link operations on chains: every operation is a sequence of cuts and
    joins of the Next() function. *)
From Verif Require Export NodeChain.

(** ** Next() functions *)
Definition nfun := loc -> ptr.
Definition nf (h : heap) : nfun := fun x => next_of h (Some x).

Definition inj_nf (f : nfun) : Prop := forall a b c, f a = Some c -> f b = Some c -> a = b.

Fixpoint path (f : nfun) (p : ptr) (ls : list loc) (q : ptr) : Prop :=
  match ls with [] => p = q | l :: r => p = Some l /\ path f (f l) r q end.

(** [ls] is a maximal path. *)
Definition chainf (f : nfun) (ls : list loc) : Prop :=
  path f (hd_ptr ls None) ls None /\
  match ls with [] => True | l :: _ => forall x, f x <> Some l end.

Definition cut (n : loc) (f : nfun) : nfun := fun x => if decide (x = n) then None else f x.
Definition cutb (n : loc) (f : nfun) : nfun := fun x => if decide (f x = Some n) then None else f x.
Definition join (a b : loc) (f : nfun) : nfun := fun x => if decide (x = a) then Some b else f x.

Lemma path_nseg h p ls q : path (nf h) p ls q <-> nseg h p ls q.
Proof. revert p. induction ls as [|l r IH]; intros p; simpl; [done|]. by rewrite IH. Qed.

Lemma chain_chainf h ls : wf h -> chain h ls <-> chainf (nf h) ls /\ (forall x, x ∈ ls -> valid h x).
Proof.
  intros W. split.
  - intros C. split; [|intros x Hx; by eapply seg_valid]. split.
    + apply path_nseg. by eapply seg_nseg.
    + destruct ls as [|l r]; [done|]. intros x E. apply (wf_sym _ W) in E.
      destruct C as (_ & P & _). congruence.
  - intros [[S P] V]. apply chain_intro; [done|done| |by apply path_nseg].
    destruct ls as [|l r]; [done|]. destruct (prev_of h (Some l)) as [p|] eqn:E; [|done].
    apply (wf_sym _ W) in E. by apply P in E.
Qed.
Lemma inj_wf h : wf h -> inj_nf (nf h).
Proof. intros W a b c A B. apply (wf_sym _ W) in A. apply (wf_sym _ W) in B. congruence. Qed.

Lemma path_app f p xs ys q : path f p (xs ++ ys) q <-> exists m, path f p xs m /\ path f m ys q.
Proof.
  revert p. induction xs as [|x xs IH]; intros p; simpl.
  - split; [eauto|intros (m & -> & H); exact H].
  - rewrite IH. split; [intros (-> & m & ? & ?); eauto|intros (m & [-> ?] & ?); eauto].
Qed.
Lemma path_frame f g p ls q : (forall x, x ∈ ls -> g x = f x) -> path f p ls q -> path g p ls q.
Proof.
  revert p. induction ls as [|x r IH]; intros p F; [done|]. intros [-> S]. split; [done|].
  rewrite F by left. apply IH; [|done]. intros y Hy. apply F. by right.
Qed.
Lemma path_hd f p ls q : path f p ls q -> p = hd_ptr ls q.
Proof. destruct ls; simpl; [done|]. by intros [-> _]. Qed.
Lemma hd_ptr_app xs ys q : hd_ptr (xs ++ ys) q = hd_ptr xs (hd_ptr ys q).
Proof. by destruct xs. Qed.
Lemma path_det f p ls ms : path f p ls None -> path f p ms None -> ls = ms.
Proof.
  revert p ms. induction ls as [|x r IH]; intros p ms; simpl.
  - intros ->. destruct ms as [|y s]; [done|]. intros [[=] _].
  - intros [-> S]. destruct ms as [|y s]; simpl; [intros [=]|].
    intros [[= ->] T]. f_equal. eauto.
Qed.
Lemma path_NoDup f p ls : path f p ls None -> NoDup ls.
Proof.
  revert p. induction ls as [|x r IH]; intros p; [constructor|].
  intros S. constructor; [|destruct S; eauto].
  intros (r1 & r2 & ->)%elem_of_list_split.
  destruct S as [-> S].
  assert (E : x :: r2 = x :: r1 ++ x :: r2).
  { apply (path_det f (Some x)); [|done].
    apply path_app in S as (m & _ & [-> S]). by split. }
  apply (f_equal length) in E. simpl in E. rewrite app_length in E. simpl in E. lia.
Qed.
Lemma chainf_NoDup f ls : chainf f ls -> NoDup ls.
Proof. intros [S _]. by eapply path_NoDup. Qed.

Lemma chainf_ext f g ls : (forall x, g x = f x) -> chainf f ls -> chainf g ls.
Proof.
  intros E [S P]. split; [eapply path_frame; [|exact S]; auto|].
  destruct ls; [done|]. intros x. rewrite E. apply P.
Qed.

Lemma path_next f p xs n ys q : path f p (xs ++ n :: ys) q -> f n = hd_ptr ys q.
Proof. intros (m & _ & [-> S])%path_app. by eapply path_hd. Qed.
Lemma chainf_next f xs n ys : chainf f (xs ++ n :: ys) -> f n = head ys.
Proof. intros [S _]. rewrite (path_next _ _ _ _ _ _ S). by destruct ys. Qed.
Lemma path_in f p ls x y q : path f p ls q -> x ∈ ls -> f x = Some y -> y ∈ ls \/ q = Some y.
Proof.
  intros S (r1 & r2 & ->)%elem_of_list_split E. rewrite (path_next _ _ _ _ _ _ S) in E.
  destruct r2; simplify_eq/=; [by right|left; set_solver].
Qed.

Lemma inj_cut n f : inj_nf f -> inj_nf (cut n f).
Proof. intros I a b c. unfold cut. repeat case_decide; try discriminate. apply I. Qed.
Lemma inj_cutb n f : inj_nf f -> inj_nf (cutb n f).
Proof. intros I a b c. unfold cutb. repeat case_decide; try discriminate. apply I. Qed.
Lemma inj_join a b f : inj_nf f -> (forall x, f x <> Some b) -> inj_nf (join a b f).
Proof.
  intros I H x y c. unfold join. repeat case_decide; intros; simplify_eq; auto.
  - by exfalso; eapply H.
  - by exfalso; eapply H.
  - eapply I; eauto.
Qed.

Lemma chainf_cut f xs n ys : inj_nf f -> chainf f (xs ++ n :: ys) ->
  chainf (cut n f) (xs ++ [n]) /\ chainf (cut n f) ys.
Proof.
  intros I C. pose proof (chainf_NoDup _ _ C) as ND.
  apply NoDup_app in ND as (NX & D & NY). apply NoDup_cons in NY as [Hn NY].
  destruct C as [S P]. pose proof (path_next _ _ _ _ _ _ S) as En.
  apply path_app in S as (m & S1 & [-> S2]).
  assert (S1' : path (cut n f) (hd_ptr (xs ++ n :: ys) None) xs (Some n)).
  { eapply path_frame; [|exact S1]. intros x Hx. unfold cut. rewrite decide_False; [done|].
    intros ->. apply (D n Hx). left. }
  assert (S2' : path (cut n f) (f n) ys None).
  { eapply path_frame; [|exact S2]. intros x Hx. unfold cut. rewrite decide_False; [done|congruence]. }
  split; split.
  - replace (hd_ptr (xs ++ [n]) None) with (hd_ptr (xs ++ n :: ys) None) by (by destruct xs).
    apply path_app. exists (Some n). split; [done|]. split; [done|]. unfold cut. by rewrite decide_True.
  - destruct xs as [|x xs]; simpl in *; intros z; unfold cut; case_decide; try discriminate; apply P.
  - by rewrite <- En.
  - destruct ys as [|y ys]; [done|]. simpl in En. intros z. unfold cut. case_decide; [discriminate|].
    intros E. assert (z = n) by (eapply I; eauto). congruence.
Qed.

Lemma chainf_cut_frame f n zs : chainf f zs -> n ∉ zs -> chainf (cut n f) zs.
Proof.
  intros [S P] H. split.
  - eapply path_frame; [|exact S]. intros x Hx. unfold cut. rewrite decide_False; congruence.
  - destruct zs; [done|]. intros x. unfold cut. case_decide; [discriminate|apply P].
Qed.

(** Cutting before [n]. *)
Lemma chainf_cutb f us n vs : inj_nf f -> chainf f (us ++ n :: vs) ->
  chainf (cutb n f) us /\ chainf (cutb n f) (n :: vs).
Proof.
  intros I C. destruct us as [|u us _] using rev_ind.
  - simpl in C. split; [split; done|]. eapply chainf_ext; [|exact C].
    intros x. unfold cutb. case_decide as E; [|done]. by apply (proj2 C) in E.
  - rewrite <- app_assoc in C. simpl in C.
    pose proof (chainf_next _ _ _ _ C) as E. simpl in E.
    destruct (chainf_cut _ _ _ _ I C) as [C1 C2].
    assert (X : forall x, cutb n f x = cut u f x).
    { intros x. unfold cutb, cut. repeat case_decide; simplify_eq; auto; try congruence.
      exfalso. assert (x = u) by (eapply I; eauto). congruence. }
    split; eapply chainf_ext; eauto.
Qed.
Lemma chainf_cutb_frame f n zs : chainf f zs -> n ∉ zs -> chainf (cutb n f) zs.
Proof.
  intros [S P] H. split.
  - eapply path_frame; [|exact S]. intros x Hx. unfold cutb. rewrite decide_False; [done|].
    intros E. destruct (path_in _ _ _ _ _ _ S Hx E); [done|discriminate].
  - destruct zs; [done|]. intros x. unfold cutb. case_decide; [discriminate|apply P].
Qed.

Lemma chainf_unique f ls ms x : inj_nf f -> chainf f ls -> chainf f ms -> x ∈ ls -> x ∈ ms -> ls = ms.
Proof.
  intros I C D Hx Hy.
  apply elem_of_list_split in Hx as (xs & ys & ->). apply elem_of_list_split in Hy as (us & vs & ->).
  assert (EY : ys = vs).
  { destruct C as [(m & _ & [-> S])%path_app _], D as [(m & _ & [-> T])%path_app _].
    eapply path_det; eauto. }
  subst vs. f_equal.
  revert x ys us C D. induction xs as [|a xs IH] using rev_ind; intros x ys us C D.
  - destruct us as [|u us _] using rev_ind; [done|]. exfalso.
    rewrite <- app_assoc in D. apply chainf_next in D. simpl in D. by apply (proj2 C) in D.
  - destruct us as [|u us _] using rev_ind.
    + exfalso. rewrite <- app_assoc in C. apply chainf_next in C. simpl in C. by apply (proj2 D) in C.
    + rewrite <- app_assoc in C, D. simpl in *.
      assert (a = u) as ->.
      { eapply I; [eapply chainf_next in C; exact C|eapply chainf_next in D; exact D]. }
      f_equal. eapply IH; eauto.
Qed.

Lemma chainf_join f xs a b ys : chainf f (xs ++ [a]) -> chainf f (b :: ys) ->
  (forall x, x ∈ xs ++ [a] -> x ∉ b :: ys) -> chainf (join a b f) (xs ++ a :: b :: ys).
Proof.
  intros C D Hd. pose proof (chainf_NoDup _ _ C) as ND.
  apply NoDup_app in ND as (NX & ND & _).
  destruct C as [S P], D as [T Q]. apply path_app in S as (m & S1 & [-> S2]).
  split.
  - replace (hd_ptr (xs ++ a :: b :: ys) None) with (hd_ptr (xs ++ [a]) None) by (by destruct xs).
    apply path_app. exists (Some a). split.
    + eapply path_frame; [|exact S1]. intros x Hx. unfold join. rewrite decide_False; [done|].
      intros ->. apply (ND a Hx). left.
    + split; [done|]. replace (join a b f a) with (Some b) by (unfold join; by rewrite decide_True).
      eapply path_frame; [|exact T]. intros x Hx. unfold join. rewrite decide_False; [done|].
      intros ->. apply (Hd a); set_solver.
  - destruct xs as [|x xs]; simpl in *; intros z; unfold join; case_decide; try apply P; intros [= ->].
    + apply (Hd a); set_solver.
    + apply (Hd x); set_solver.
Qed.
Lemma chainf_join_frame f a b zs : chainf f zs -> a ∉ zs -> b ∉ zs -> chainf (join a b f) zs.
Proof.
  intros [S P] Ha Hb. split.
  - eapply path_frame; [|exact S]. intros x Hx. unfold join. rewrite decide_False; congruence.
  - destruct zs as [|z zs]; [done|]. intros x. unfold join. case_decide; [|apply P]. intros [= ->]. set_solver.
Qed.

(** Transfer from heaps to Next() functions and back. *)
Lemma chain_from h h' f ls : wf h' -> length h' = length h ->
  (forall x, nf h' x = f x) -> chainf f ls -> (forall x, x ∈ ls -> valid h x) -> chain h' ls.
Proof.
  intros W L E C V. apply chain_chainf; [done|]. split; [by eapply chainf_ext|].
  intros x Hx. unfold valid. rewrite L. by apply V.
Qed.
Lemma valid_chain h ls l : chain h ls -> l ∈ ls -> valid h l.
Proof. apply seg_valid. Qed.

(** ** Isolation, splicing *)
Definition iso (n : loc) (f : nfun) : nfun := cut n (cutb n f).
Definition splice (n nn : loc) (f : nfun) : nfun :=
  fun x => if decide (x = n) then Some nn else if decide (x = nn) then f n else f x.
Definition spliceb (n nn : loc) (f : nfun) : nfun :=
  fun x => if decide (x = nn) then Some n else if decide (f x = Some n) then Some nn else f x.

Lemma inj_iso n f : inj_nf f -> inj_nf (iso n f).
Proof. intros I. by apply inj_cut, inj_cutb. Qed.

Lemma chainf_iso f us n vs : inj_nf f -> chainf f (us ++ n :: vs) ->
  chainf (iso n f) us /\ chainf (iso n f) [n] /\ chainf (iso n f) vs.
Proof.
  intros I C. pose proof (chainf_NoDup _ _ C) as ND.
  destruct (chainf_cutb _ _ _ _ I C) as [C1 C2].
  destruct (chainf_cut _ [] _ _ (inj_cutb n f I) C2) as [C3 C4].
  split_and!; [|exact C3|exact C4]. apply chainf_cut_frame; [done|].
  apply NoDup_app in ND as (_ & D & _). intros H. apply (D n H). left.
Qed.
Lemma chainf_iso_frame f n zs : chainf f zs -> n ∉ zs -> chainf (iso n f) zs.
Proof. intros C H. by apply chainf_cut_frame, H; apply chainf_cutb_frame. Qed.

Lemma chainf_splice f xs n ys nn : inj_nf f -> chainf f (xs ++ n :: ys) -> chainf f [nn] ->
  nn ∉ xs ++ n :: ys -> chainf (splice n nn f) (xs ++ n :: nn :: ys).
Proof.
  intros I C D Hnn.
  assert (Hf : f nn = None) by (destruct D as [[_ S] _]; exact S).
  pose proof (chainf_NoDup _ _ C) as ND. apply NoDup_app in ND as (NX & ND & NY).
  apply NoDup_cons in NY as [Hny NY].
  destruct (chainf_cut _ _ _ _ I C) as [C1 C2]. pose proof (chainf_next _ _ _ _ C) as En.
  assert (D' : chainf (cut n f) [nn]) by (apply chainf_cut_frame; set_solver).
  assert (J : chainf (join n nn (cut n f)) (xs ++ n :: [nn])).
  { apply chainf_join; [done|done|set_solver]. }
  destruct ys as [|y ys].
  - eapply chainf_ext; [|exact J]. intros x. unfold splice, join, cut.
    repeat case_decide; simplify_eq; auto. by rewrite Hf, En.
  - assert (J2 : chainf (join n nn (cut n f)) (y :: ys)).
    { apply chainf_join_frame; [done|set_solver|set_solver]. }
    assert (chainf (join nn y (join n nn (cut n f))) ((xs ++ [n]) ++ nn :: y :: ys)) as K.
    { apply chainf_join; [by rewrite <- app_assoc|done|].
      intros x Hx Hy. rewrite <- app_assoc in Hx. simpl in Hx.
      rewrite elem_of_app, !elem_of_cons in Hx. set_solver. }
    rewrite <- app_assoc in K. eapply chainf_ext; [|exact K].
    intros x. unfold splice, join, cut. repeat case_decide; simplify_eq; auto.
    exfalso. set_solver.
Qed.
Lemma chainf_splice_frame f n nn zs : inj_nf f -> chainf f zs -> n ∉ zs -> nn ∉ zs -> chainf (splice n nn f) zs.
Proof.
  intros I [S P] Hn Hnn. split.
  - eapply path_frame; [|exact S]. intros x Hx. unfold splice. rewrite !decide_False; congruence.
  - destruct zs as [|z zs]; [done|]. intros x. unfold splice.
    repeat case_decide; try apply P. intros [= ->]. set_solver.
Qed.
Lemma chainf_spliceb f xs n ys nn : inj_nf f -> chainf f (xs ++ n :: ys) -> chainf f [nn] ->
  nn ∉ xs ++ n :: ys -> chainf (spliceb n nn f) (xs ++ nn :: n :: ys).
Proof.
  intros I C D Hnn.
  assert (Hf : f nn = None) by (destruct D as [[_ S] _]; exact S).
  pose proof (chainf_NoDup _ _ C) as ND.
  destruct xs as [|p xs _] using rev_ind.
  - simpl in *. eapply chainf_ext; [|apply (chainf_join f [] nn n ys); [done|done|set_solver]].
    intros x. unfold spliceb, join. case_decide; [done|]. case_decide as E; [|done].
    by apply (proj2 C) in E.
  - rewrite <- !app_assoc in *. simpl in *.
    pose proof (chainf_next _ _ _ _ C) as En. simpl in En.
    eapply chainf_ext; [|apply (chainf_splice f xs p (n :: ys) nn); done].
    intros x. unfold spliceb, splice. repeat case_decide; simplify_eq; auto.
    exfalso. assert (x = p) by (eapply I; eauto). done.
Qed.
Lemma chainf_spliceb_frame f n nn zs : inj_nf f -> chainf f zs -> n ∉ zs -> nn ∉ zs -> chainf (spliceb n nn f) zs.
Proof.
  intros I [S P] Hn Hnn. split.
  - eapply path_frame; [|exact S]. intros x Hx. unfold spliceb. rewrite decide_False by congruence.
    case_decide as E; [|done]. destruct (path_in _ _ _ _ _ _ S Hx E); [done|discriminate].
  - destruct zs as [|z zs]; [done|]. intros x. unfold spliceb.
    repeat case_decide; try apply P; intros [= E1]; subst; [apply Hn|apply Hnn]; left.
Qed.

(** ** The operations as Next() functions *)
Lemma nf_insert_next h n nn : wf h -> valid h n -> valid h nn -> n <> nn -> nf h n <> Some nn ->
  forall x, nf (fst (insert_next h (Some n) (Some nn))) x = splice n nn (iso nn (nf h)) x.
Proof.
  intros W V1 V2 Hne Hx x. unfold nf at 1. rewrite (proj1 (insert_next_links h n nn W V1 V2 Hne Hx) x).
  unfold splice, iso, cut, cutb. fold (nf h x). fold (nf h n). repeat case_decide; congruence.
Qed.
Lemma nf_insert_prev h n nn : wf h -> valid h n -> valid h nn -> n <> nn -> prev_of h (Some n) <> Some nn ->
  forall x, nf (fst (insert_prev h (Some n) (Some nn))) x = spliceb n nn (iso nn (nf h)) x.
Proof.
  intros W V1 V2 Hne Hx x. unfold nf at 1. rewrite (proj1 (insert_prev_links h n nn W V1 V2 Hne Hx) x).
  unfold spliceb, iso, cut, cutb, nf. repeat case_decide; sym_sat W; congruence.
Qed.
Lemma nf_replace_next h n nn : wf h -> valid h n -> valid h nn -> n <> nn -> nf h n <> Some nn ->
  forall x, nf (fst (replace_next h (Some n) (Some nn))) x = join n nn (cut n (cutb nn (nf h))) x.
Proof.
  intros W V1 V2 Hne Hx x. unfold nf at 1. rewrite (proj1 (replace_next_links h n nn W V1 V2 Hne Hx) x).
  unfold join, cut, cutb, nf. repeat case_decide; congruence.
Qed.
Lemma nf_replace_prev h n nn : wf h -> valid h n -> valid h nn -> n <> nn -> prev_of h (Some n) <> Some nn ->
  forall x, nf (fst (replace_prev h (Some n) (Some nn))) x = join nn n (cut nn (cutb n (nf h))) x.
Proof.
  intros W V1 V2 Hne Hx x. unfold nf at 1. rewrite (proj1 (replace_prev_links h n nn W V1 V2 Hne Hx) x).
  unfold join, cut, cutb, nf. repeat case_decide; congruence.
Qed.
Lemma nf_remove_next h n : wf h -> valid h n ->
  forall x, nf (fst (remove_next h (Some n))) x = cut n (nf h) x.
Proof. intros W V x. apply (proj1 (remove_next_links h n W V) x). Qed.
Lemma nf_remove_prev h n : wf h -> valid h n ->
  forall x, nf (fst (remove_prev h (Some n))) x = cutb n (nf h) x.
Proof. intros W V x. apply (proj1 (remove_prev_links h n W V) x). Qed.
Lemma nf_isolate h n : wf h -> valid h n ->
  forall x, nf (isolate h (Some n)) x = iso n (nf h) x.
Proof. intros W V x. apply (proj1 (isolate_links h n W V) x). Qed.

(** ** InsertNext *)
Section ops.
Context (h : heap) (W : wf h).

Lemma disj_chains ls ms x : chain h ls -> chain h ms -> x ∉ ls -> x ∈ ms -> forall y, y ∈ ls -> y ∉ ms.
Proof. intros C D H1 H2 y Hy Hz. apply H1. by rewrite (chain_unique h ls ms y). Qed.

(** Enough to know the chains around [n] after [nn] has been isolated. *)
Lemma insert_next_general n nn : valid h n -> valid h nn -> n <> nn -> nf h n <> Some nn ->
  let h' := fst (insert_next h (Some n) (Some nn)) in
  (forall xs ys, chainf (iso nn (nf h)) (xs ++ n :: ys) -> nn ∉ xs ++ n :: ys ->
     (forall x, x ∈ xs ++ n :: ys -> valid h x) -> chain h' (xs ++ n :: nn :: ys)) /\
  (forall zs, chainf (iso nn (nf h)) zs -> n ∉ zs -> nn ∉ zs -> (forall x, x ∈ zs -> valid h x) -> chain h' zs).
Proof.
  intros V1 V2 Hne Hx h'.
  assert (W' : wf h') by by apply wf_insert_next.
  assert (L : length h' = length h) by apply same_payload_insert_next.
  assert (I : inj_nf (iso nn (nf h))) by by apply inj_iso, inj_wf.
  assert (Dn : chainf (iso nn (nf h)) [nn]).
  { split; [split; [done|]|].
    - unfold iso, cut. by rewrite decide_True.
    - intros x. unfold iso, cut, cutb. repeat case_decide; congruence. }
  split.
  - intros xs ys C Hnn V. eapply chain_from; [done|exact L|by apply nf_insert_next| |].
    + by apply chainf_splice.
    + intros x Hx'. destruct (decide (x = nn)) as [->|]; [done|]. apply V. set_solver.
  - intros zs C Hn Hnn V. eapply chain_from; [done|exact L|by apply nf_insert_next| |done].
    by apply chainf_splice_frame.
Qed.

Lemma insert_prev_general n nn : valid h n -> valid h nn -> n <> nn -> prev_of h (Some n) <> Some nn ->
  let h' := fst (insert_prev h (Some n) (Some nn)) in
  (forall xs ys, chainf (iso nn (nf h)) (xs ++ n :: ys) -> nn ∉ xs ++ n :: ys ->
     (forall x, x ∈ xs ++ n :: ys -> valid h x) -> chain h' (xs ++ nn :: n :: ys)) /\
  (forall zs, chainf (iso nn (nf h)) zs -> n ∉ zs -> nn ∉ zs -> (forall x, x ∈ zs -> valid h x) -> chain h' zs).
Proof.
  intros V1 V2 Hne Hx h'.
  assert (W' : wf h') by by apply wf_insert_prev.
  assert (L : length h' = length h) by apply same_payload_insert_prev.
  assert (I : inj_nf (iso nn (nf h))) by by apply inj_iso, inj_wf.
  assert (Dn : chainf (iso nn (nf h)) [nn]).
  { split; [split; [done|]|].
    - unfold iso, cut. by rewrite decide_True.
    - intros x. unfold iso, cut, cutb. repeat case_decide; congruence. }
  split.
  - intros xs ys C Hnn V. eapply chain_from; [done|exact L|by apply nf_insert_prev| |].
    + by apply chainf_spliceb.
    + intros x Hx'. destruct (decide (x = nn)) as [->|]; [done|]. apply V. set_solver.
  - intros zs C Hn Hnn V. eapply chain_from; [done|exact L|by apply nf_insert_prev| |done].
    by apply chainf_spliceb_frame.
Qed.

Lemma last_ptr_None ls : last_ptr ls None = last ls.
Proof. unfold last_ptr. by destruct (last ls). Qed.
Lemma hd_ptr_None ls : hd_ptr ls None = head ls.
Proof. by destruct ls. Qed.
Lemma chain_next xs n ys : chain h (xs ++ n :: ys) -> next_of h (Some n) = head ys.
Proof. intros C. rewrite (seg_next _ _ _ _ _ _ C). apply hd_ptr_None. Qed.
Lemma chain_prev xs n ys : chain h (xs ++ n :: ys) -> prev_of h (Some n) = last xs.
Proof. intros C. rewrite (seg_prev _ _ _ _ _ _ C). apply last_ptr_None. Qed.

Lemma insert_next_result n nn : n <> nn -> next_of h n <> nn ->
  snd (insert_next h n nn) = (prev_of h nn, next_of h nn).
Proof. intros. unfold insert_next. rw_false. done. Qed.
Lemma insert_prev_result n nn : n <> nn -> prev_of h n <> nn ->
  snd (insert_prev h n nn) = (prev_of h nn, next_of h nn).
Proof. intros. unfold insert_prev. rw_false. done. Qed.
Lemma replace_next_result n nn : n <> nn -> next_of h n <> nn ->
  snd (replace_next h n nn) = (prev_of h nn, next_of h n).
Proof. intros. unfold replace_next. rw_false. done. Qed.
Lemma replace_prev_result n nn : n <> nn -> prev_of h n <> nn ->
  snd (replace_prev h n nn) = (prev_of h n, next_of h nn).
Proof. intros. unfold replace_prev. rw_false. done. Qed.

Lemma insert_next_noop n nn : n = nn \/ next_of h n = nn -> insert_next h n nn = (h, (None, None)).
Proof. unfold insert_next. intros [->| ->]; rewrite (proj2 (ptr_eqb_true _ _) eq_refl), ?orb_true_r; done. Qed.
Lemma insert_prev_noop n nn : n = nn \/ prev_of h n = nn -> insert_prev h n nn = (h, (None, None)).
Proof. unfold insert_prev. intros [->| ->]; rewrite (proj2 (ptr_eqb_true _ _) eq_refl), ?orb_true_r; done. Qed.
Lemma replace_next_noop n nn : n = nn \/ next_of h n = nn -> replace_next h n nn = (h, (None, None)).
Proof. unfold replace_next. intros [->| ->]; rewrite (proj2 (ptr_eqb_true _ _) eq_refl), ?orb_true_r; done. Qed.
Lemma replace_prev_noop n nn : n = nn \/ prev_of h n = nn -> replace_prev h n nn = (h, (None, None)).
Proof. unfold replace_prev. intros [->| ->]; rewrite (proj2 (ptr_eqb_true _ _) eq_refl), ?orb_true_r; done. Qed.

(** Chains of [h] seen as maximal paths. *)
Lemma c2f ls : chain h ls -> chainf (nf h) ls.
Proof. intros C. by apply (chain_chainf h ls W). Qed.

Definition frame2 (h' : heap) (a b : loc) : Prop :=
  forall zs, chain h zs -> a ∉ zs -> b ∉ zs -> chain h' zs.

Lemma insert_next_frame n nn : valid h n -> valid h nn ->
  frame2 (fst (insert_next h (Some n) (Some nn))) n nn.
Proof.
  intros V1 V2 zs C Hn Hnn.
  destruct (decide (n = nn \/ next_of h (Some n) = Some nn)) as [D|D].
  { rewrite insert_next_noop; [done|]. destruct D; [left; congruence|by right]. }
  apply (proj2 (insert_next_general n nn V1 V2 ltac:(tauto) ltac:(unfold nf; tauto))); auto.
  - apply chainf_iso_frame; [by apply c2f|done].
  - intros x. by apply valid_chain.
Qed.
Lemma insert_prev_frame n nn : valid h n -> valid h nn ->
  frame2 (fst (insert_prev h (Some n) (Some nn))) n nn.
Proof.
  intros V1 V2 zs C Hn Hnn.
  destruct (decide (n = nn \/ prev_of h (Some n) = Some nn)) as [D|D].
  { rewrite insert_prev_noop; [done|]. destruct D; [left; congruence|by right]. }
  apply (proj2 (insert_prev_general n nn V1 V2 ltac:(tauto) ltac:(unfold nf; tauto))); auto.
  - apply chainf_iso_frame; [by apply c2f|done].
  - intros x. by apply valid_chain.
Qed.

Lemma inj_h : inj_nf (nf h). Proof. by apply inj_wf. Qed.

Ltac ndf C := let ND := fresh "ND" in pose proof (chain_NoDup _ _ C) as ND;
  repeat (rewrite NoDup_app in ND || rewrite NoDup_cons in ND || rewrite elem_of_app in ND || rewrite elem_of_cons in ND).

(** The donor is another chain. *)
Lemma insert_next_cross n nn xs ys us vs :
  chain h (xs ++ n :: ys) -> chain h (us ++ nn :: vs) -> n ∉ us ++ nn :: vs ->
  let '(h', r) := insert_next h (Some n) (Some nn) in
  chain h' (xs ++ n :: nn :: ys) /\ chain h' us /\ chain h' vs /\ r = (last us, head vs) /\ frame2 h' n nn.
Proof.
  intros C D Hd.
  assert (V1 : valid h n) by (eapply valid_chain; [exact C|set_solver]).
  assert (V2 : valid h nn) by (eapply valid_chain; [exact D|set_solver]).
  assert (Hd' : nn ∉ xs ++ n :: ys).
  { eapply (disj_chains _ _ n D C); set_solver. }
  assert (Hne : n <> nn) by set_solver.
  assert (Hx : nf h n <> Some nn).
  { intros E. apply Hd'. eapply chain_next_in; [exact C| |exact E]. set_solver. }
  destruct (insert_next_general n nn V1 V2 Hne Hx) as [G1 G2].
  pose proof (insert_next_frame n nn V1 V2) as G3.
  pose proof (insert_next_result (Some n) (Some nn) ltac:(congruence) Hx) as R.
  destruct (chainf_iso _ _ _ _ inj_h (c2f _ D)) as (I1 & I2 & I3).
  pose proof (chain_NoDup _ _ D) as (ND1 & ND2 & ND3)%NoDup_app. apply NoDup_cons in ND3 as [ND3 ND4].
  destruct (insert_next h (Some n) (Some nn)) as [h' r]. cbn [fst snd] in *.
  split_and!; auto.
  - apply G1; auto.
    + apply chainf_iso_frame; [by apply c2f|done].
    + intros x. by apply valid_chain.
  - apply G2; auto; [set_solver| |].
    + intros H. apply (ND2 nn H). left.
    + intros x Hxx. eapply valid_chain; [exact D|set_solver].
  - apply G2; auto; [set_solver|].
    intros x Hxx. eapply valid_chain; [exact D|set_solver].
  - by rewrite R, (chain_prev _ _ _ D), (chain_next _ _ _ D).
Qed.

(** [nn] is somewhere before [n] on the same chain. *)
Lemma insert_next_before n nn us vs ys :
  chain h (us ++ nn :: vs ++ n :: ys) ->
  let '(h', r) := insert_next h (Some n) (Some nn) in
  chain h' us /\ chain h' (vs ++ n :: nn :: ys) /\ r = (last us, head (vs ++ n :: ys)) /\ frame2 h' n nn.
Proof.
  intros D.
  assert (V1 : valid h n) by (eapply valid_chain; [exact D|set_solver]).
  assert (V2 : valid h nn) by (eapply valid_chain; [exact D|set_solver]).
  pose proof (chain_NoDup _ _ D) as (ND1 & ND2 & ND3)%NoDup_app. apply NoDup_cons in ND3 as [ND3 ND4].
  assert (Hne : n <> nn) by set_solver.
  assert (Hx : nf h n <> Some nn).
  { intros E.
    assert (D' : chain h ((us ++ nn :: vs) ++ n :: ys)) by (rewrite <- app_assoc; exact D).
    apply chain_next in D'. unfold nf in E. rewrite E in D'. destruct ys; simplify_eq/=. set_solver. }
  destruct (insert_next_general n nn V1 V2 Hne Hx) as [G1 G2].
  pose proof (insert_next_frame n nn V1 V2) as G3.
  pose proof (insert_next_result (Some n) (Some nn) ltac:(congruence) Hx) as R.
  destruct (chainf_iso _ _ _ _ inj_h (c2f _ D)) as (I1 & I2 & I3).
  destruct (insert_next h (Some n) (Some nn)) as [h' r]. cbn [fst snd] in *.
  split_and!; auto.
  - apply G2; auto.
    + intros H. apply (ND2 n H). set_solver.
    + intros H. apply (ND2 nn H). left.
    + intros x Hxx. eapply valid_chain; [exact D|set_solver].
  - apply G1; auto. intros x Hxx. eapply valid_chain; [exact D|]. set_solver.
  - by rewrite R, (chain_prev _ _ _ D), (chain_next _ _ _ D).
Qed.

(** [nn] is after [n] on the same chain, with [ws] between them. *)
Lemma insert_next_after n nn xs ws vs : ws <> [] ->
  chain h (xs ++ n :: ws ++ nn :: vs) ->
  let '(h', r) := insert_next h (Some n) (Some nn) in
  chain h' (xs ++ n :: nn :: ws) /\ chain h' vs /\ r = (last ws, head vs) /\ frame2 h' n nn.
Proof.
  intros Hws D0.
  assert (D : chain h ((xs ++ n :: ws) ++ nn :: vs)) by (rewrite <- app_assoc; exact D0).
  assert (V1 : valid h n) by (eapply valid_chain; [exact D|set_solver]).
  assert (V2 : valid h nn) by (eapply valid_chain; [exact D|set_solver]).
  pose proof (chain_NoDup _ _ D) as (ND1 & ND2 & ND3)%NoDup_app. apply NoDup_cons in ND3 as [ND3 ND4].
  assert (Hnn : nn ∉ xs ++ n :: ws) by (intros H; apply (ND2 nn H); left).
  assert (Hne : n <> nn) by set_solver.
  assert (Hx : nf h n <> Some nn).
  { intros E. apply chain_next in D0. unfold nf in E. rewrite E in D0. destruct ws; simplify_eq/=. set_solver. }
  destruct (insert_next_general n nn V1 V2 Hne Hx) as [G1 G2].
  pose proof (insert_next_frame n nn V1 V2) as G3.
  pose proof (insert_next_result (Some n) (Some nn) ltac:(congruence) Hx) as R.
  destruct (chainf_iso _ _ _ _ inj_h (c2f _ D)) as (I1 & I2 & I3).
  pose proof (chain_prev _ _ _ D) as EP. pose proof (chain_next _ _ _ D) as EN.
  destruct (insert_next h (Some n) (Some nn)) as [h' r]. cbn [fst snd] in *.
  split_and!; auto.
  - apply G1; auto. intros x Hxx. eapply valid_chain; [exact D|set_solver].
  - apply G2; auto.
    + intros H. apply (ND2 n); set_solver.
    + intros x Hxx. eapply valid_chain; [exact D|set_solver].
  - rewrite R, EP, EN. f_equal. rewrite last_app. destruct ws using rev_ind; [done|].
    change (n :: ws ++ [x]) with ((n :: ws) ++ [x]). by rewrite !last_snoc.
Qed.

(** ** InsertPrev, the mirror image *)
Lemma insert_prev_cross n nn xs ys us vs :
  chain h (xs ++ n :: ys) -> chain h (us ++ nn :: vs) -> n ∉ us ++ nn :: vs ->
  let '(h', r) := insert_prev h (Some n) (Some nn) in
  chain h' (xs ++ nn :: n :: ys) /\ chain h' us /\ chain h' vs /\ r = (last us, head vs) /\ frame2 h' n nn.
Proof.
  intros C D Hd.
  assert (V1 : valid h n) by (eapply valid_chain; [exact C|set_solver]).
  assert (V2 : valid h nn) by (eapply valid_chain; [exact D|set_solver]).
  assert (Hd' : nn ∉ xs ++ n :: ys).
  { eapply (disj_chains _ _ n D C); set_solver. }
  assert (Hne : n <> nn) by set_solver.
  assert (Hx : prev_of h (Some n) <> Some nn).
  { intros E. apply Hd'. eapply chain_prev_in; [exact C| |exact E]. set_solver. }
  destruct (insert_prev_general n nn V1 V2 Hne Hx) as [G1 G2].
  pose proof (insert_prev_frame n nn V1 V2) as G3.
  pose proof (insert_prev_result (Some n) (Some nn) ltac:(congruence) Hx) as R.
  destruct (chainf_iso _ _ _ _ inj_h (c2f _ D)) as (I1 & I2 & I3).
  pose proof (chain_NoDup _ _ D) as (ND1 & ND2 & ND3)%NoDup_app. apply NoDup_cons in ND3 as [ND3 ND4].
  destruct (insert_prev h (Some n) (Some nn)) as [h' r]. cbn [fst snd] in *.
  split_and!; auto.
  - apply G1; auto.
    + apply chainf_iso_frame; [by apply c2f|done].
    + intros x. by apply valid_chain.
  - apply G2; auto; [set_solver| |].
    + intros H. apply (ND2 nn H). left.
    + intros x Hxx. eapply valid_chain; [exact D|set_solver].
  - apply G2; auto; [set_solver|].
    intros x Hxx. eapply valid_chain; [exact D|set_solver].
  - by rewrite R, (chain_prev _ _ _ D), (chain_next _ _ _ D).
Qed.

(** [nn] is before [n] on the same chain, with [ws] between them. *)
Lemma insert_prev_before n nn us ws ys : ws <> [] ->
  chain h (us ++ nn :: ws ++ n :: ys) ->
  let '(h', r) := insert_prev h (Some n) (Some nn) in
  chain h' us /\ chain h' (ws ++ nn :: n :: ys) /\ r = (last us, head ws) /\ frame2 h' n nn.
Proof.
  intros Hws D.
  assert (V1 : valid h n) by (eapply valid_chain; [exact D|set_solver]).
  assert (V2 : valid h nn) by (eapply valid_chain; [exact D|set_solver]).
  pose proof (chain_NoDup _ _ D) as (ND1 & ND2 & ND3)%NoDup_app. apply NoDup_cons in ND3 as [ND3 ND4].
  assert (Hne : n <> nn) by set_solver.
  assert (Hx : prev_of h (Some n) <> Some nn).
  { intros E.
    assert (D' : chain h ((us ++ nn :: ws) ++ n :: ys)) by (rewrite <- app_assoc; exact D).
    apply chain_prev in D'. rewrite E in D'. rewrite last_app in D'.
    destruct ws as [|w ws _] using rev_ind; [done|].
    change (nn :: ws ++ [w]) with ((nn :: ws) ++ [w]) in D'. rewrite last_snoc in D'.
    simplify_eq. set_solver. }
  destruct (insert_prev_general n nn V1 V2 Hne Hx) as [G1 G2].
  pose proof (insert_prev_frame n nn V1 V2) as G3.
  pose proof (insert_prev_result (Some n) (Some nn) ltac:(congruence) Hx) as R.
  destruct (chainf_iso _ _ _ _ inj_h (c2f _ D)) as (I1 & I2 & I3).
  destruct (insert_prev h (Some n) (Some nn)) as [h' r]. cbn [fst snd] in *.
  split_and!; auto.
  - apply G2; auto.
    + intros H. apply (ND2 n H). set_solver.
    + intros H. apply (ND2 nn H). left.
    + intros x Hxx. eapply valid_chain; [exact D|set_solver].
  - apply G1; auto. intros x Hxx. eapply valid_chain; [exact D|]. set_solver.
  - rewrite R, (chain_prev _ _ _ D), (chain_next _ _ _ D). by destruct ws.
Qed.

(** [nn] is somewhere after [n] on the same chain. *)
Lemma insert_prev_after n nn xs ws vs :
  chain h (xs ++ n :: ws ++ nn :: vs) ->
  let '(h', r) := insert_prev h (Some n) (Some nn) in
  chain h' (xs ++ nn :: n :: ws) /\ chain h' vs /\ r = (last (n :: ws), head vs) /\ frame2 h' n nn.
Proof.
  intros D0.
  assert (D : chain h ((xs ++ n :: ws) ++ nn :: vs)) by (rewrite <- app_assoc; exact D0).
  assert (V1 : valid h n) by (eapply valid_chain; [exact D|set_solver]).
  assert (V2 : valid h nn) by (eapply valid_chain; [exact D|set_solver]).
  pose proof (chain_NoDup _ _ D) as (ND1 & ND2 & ND3)%NoDup_app. apply NoDup_cons in ND3 as [ND3 ND4].
  assert (Hnn : nn ∉ xs ++ n :: ws) by (intros H; apply (ND2 nn H); left).
  assert (Hne : n <> nn) by set_solver.
  assert (Hx : prev_of h (Some n) <> Some nn).
  { intros E. apply chain_prev in D0. rewrite E in D0. symmetry in D0.
    apply last_Some in D0 as [l' ->]. set_solver. }
  destruct (insert_prev_general n nn V1 V2 Hne Hx) as [G1 G2].
  pose proof (insert_prev_frame n nn V1 V2) as G3.
  pose proof (insert_prev_result (Some n) (Some nn) ltac:(congruence) Hx) as R.
  destruct (chainf_iso _ _ _ _ inj_h (c2f _ D)) as (I1 & I2 & I3).
  pose proof (chain_prev _ _ _ D) as EP. pose proof (chain_next _ _ _ D) as EN.
  destruct (insert_prev h (Some n) (Some nn)) as [h' r]. cbn [fst snd] in *.
  split_and!; auto.
  - apply G1; auto. intros x Hxx. eapply valid_chain; [exact D|set_solver].
  - apply G2; auto.
    + intros H. apply (ND2 n); set_solver.
    + intros x Hxx. eapply valid_chain; [exact D|set_solver].
  - rewrite R, EP, EN. f_equal. rewrite last_app. 
    destruct (last (n :: ws)) eqn:E; [done|]. by apply last_None in E.
Qed.
End ops.
