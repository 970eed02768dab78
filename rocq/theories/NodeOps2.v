(** Replace, Take, Remove, Isolate on chains; acyclicity. *)
From Verif Require Export NodeOps.

Section ops2.
Context (h : heap) (W : wf h).

Lemma replace_next_frame n nn : valid h n -> valid h nn ->
  frame2 h (fst (replace_next h (Some n) (Some nn))) n nn.
Proof.
  intros V1 V2 zs C Hn Hnn.
  destruct (decide (n = nn \/ next_of h (Some n) = Some nn)) as [D|D].
  { rewrite replace_next_noop; [done|]. destruct D; [left; congruence|by right]. }
  eapply chain_from; [by apply wf_replace_next|apply same_payload_replace_next
    |apply nf_replace_next; [done|done|done|tauto|unfold nf; tauto]| |intros x; by apply valid_chain].
  apply chainf_join_frame; [|done|done]. apply chainf_cut_frame; [|done].
  apply chainf_cutb_frame; [|done]. by apply c2f.
Qed.
Lemma replace_prev_frame n nn : valid h n -> valid h nn ->
  frame2 h (fst (replace_prev h (Some n) (Some nn))) n nn.
Proof.
  intros V1 V2 zs C Hn Hnn.
  destruct (decide (n = nn \/ prev_of h (Some n) = Some nn)) as [D|D].
  { rewrite replace_prev_noop; [done|]. destruct D; [left; congruence|by right]. }
  eapply chain_from; [by apply wf_replace_prev|apply same_payload_replace_prev
    |apply nf_replace_prev; [done|done|done|tauto|unfold nf; tauto]| |intros x; by apply valid_chain].
  apply chainf_join_frame; [|done|done]. apply chainf_cut_frame; [|done].
  apply chainf_cutb_frame; [|done]. by apply c2f.
Qed.

Lemma elem_of_mid {A} (x : A) xs ys : x ∈ xs ++ x :: ys.
Proof. apply elem_of_app. right. left. Qed.
Lemma elem_of_l {A} (x : A) xs ys : x ∈ xs -> x ∈ xs ++ ys.
Proof. rewrite elem_of_app. auto. Qed.
Lemma elem_of_r {A} (x y : A) xs ys : x ∈ ys -> x ∈ xs ++ y :: ys.
Proof. rewrite elem_of_app, elem_of_cons. auto. Qed.
Lemma NoDup_mid {A} (x : A) xs ys : NoDup (xs ++ x :: ys) ->
  x ∉ xs /\ x ∉ ys /\ (forall y, y ∈ xs -> y ∉ ys).
Proof.
  rewrite NoDup_app, NoDup_cons. intros (N1 & D & N2 & N3).
  split; [intros H; apply (D x H); left|]. split; [done|]. intros y H1 H2. apply (D y H1). by right.
Qed.

(** ReplaceNext: [nn] heads the tail of another chain. *)
Lemma replace_next_cross n nn xs ys us vs :
  chain h (xs ++ n :: ys) -> chain h (us ++ nn :: vs) -> n ∉ us ++ nn :: vs ->
  let '(h', r) := replace_next h (Some n) (Some nn) in
  chain h' (xs ++ n :: nn :: vs) /\ chain h' us /\ chain h' ys /\ r = (last us, head ys) /\ frame2 h h' n nn.
Proof.
  intros C D Hd.
  assert (V1 : valid h n) by (eapply valid_chain; [exact C|apply elem_of_mid]).
  assert (V2 : valid h nn) by (eapply valid_chain; [exact D|apply elem_of_mid]).
  assert (DJ : forall y, y ∈ us ++ nn :: vs -> y ∉ xs ++ n :: ys)
    by (eapply (disj_chains h _ _ n D C); [done|apply elem_of_mid]).
  assert (Hd' : nn ∉ xs ++ n :: ys) by (apply DJ, elem_of_mid).
  assert (Hne : n <> nn) by (intros ->; apply Hd, elem_of_mid).
  assert (Hx : nf h n <> Some nn).
  { intros E. apply Hd'. eapply chain_next_in; [exact C|apply elem_of_mid|exact E]. }
  pose proof (nf_replace_next h n nn W V1 V2 Hne Hx) as NF.
  pose proof (replace_next_frame n nn V1 V2) as G3.
  pose proof (replace_next_result h (Some n) (Some nn) ltac:(congruence) Hx) as R.
  pose proof (wf_replace_next h (Some n) (Some nn) W V1 V2) as W'.
  pose proof (proj1 (same_payload_replace_next h (Some n) (Some nn))) as L.
  destruct (NoDup_mid _ _ _ (chain_NoDup _ _ C)) as (NC1 & NC2 & NC3).
  destruct (NoDup_mid _ _ _ (chain_NoDup _ _ D)) as (ND1 & ND2 & ND3).
  destruct (chainf_cutb _ _ _ _ (inj_h h W) (c2f h W _ D)) as [B1 B2].
  assert (A0 : chainf (cutb nn (nf h)) (xs ++ n :: ys)).
  { apply chainf_cutb_frame; [by apply c2f|done]. }
  destruct (chainf_cut _ _ _ _ (inj_cutb nn _ (inj_h h W)) A0) as [A1 A2].
  destruct (replace_next h (Some n) (Some nn)) as [h' r]. cbn [fst snd] in *.
  split_and!; auto.
  - eapply chain_from; [done|exact L|exact NF| |].
    + apply chainf_join; [exact A1|apply chainf_cut_frame; [exact B2|]|].
      * intros H. apply Hd. apply elem_of_app. by right.
      * intros x H1 H2. apply (DJ x); [apply elem_of_app; by right|].
        apply elem_of_app in H1 as [H1|H1]; [by apply elem_of_l|].
        apply elem_of_list_singleton in H1 as ->. apply elem_of_mid.
    + intros x Hx'. rewrite elem_of_app, !elem_of_cons in Hx'.
      destruct Hx' as [H|[->|[->|H]]]; [|done|done|].
      * eapply valid_chain; [exact C|by apply elem_of_l].
      * eapply valid_chain; [exact D|by apply elem_of_r].
  - eapply chain_from; [done|exact L|exact NF| |].
    + apply chainf_join_frame; [apply chainf_cut_frame; [done|]| |done].
      all: intros H; apply Hd; by apply elem_of_l.
    + intros x Hx'. eapply valid_chain; [exact D|by apply elem_of_l].
  - eapply chain_from; [done|exact L|exact NF| |].
    + apply chainf_join_frame; [done|done|]. intros H. apply Hd'. by apply elem_of_r.
    + intros x Hx'. eapply valid_chain; [exact C|by apply elem_of_r].
  - by rewrite R, (chain_prev h _ _ _ D), (chain_next h _ _ _ C).
Qed.

(** [nn] is after [n] on the same chain: what lies between drops out. *)
Lemma replace_next_after n nn xs ws vs : ws <> [] ->
  chain h (xs ++ n :: ws ++ nn :: vs) ->
  let '(h', r) := replace_next h (Some n) (Some nn) in
  chain h' (xs ++ n :: nn :: vs) /\ chain h' ws /\ r = (last ws, head ws) /\ frame2 h h' n nn.
Proof.
  intros Hws D0.
  assert (D : chain h ((xs ++ n :: ws) ++ nn :: vs)) by (rewrite <- app_assoc; exact D0).
  assert (V1 : valid h n) by (eapply valid_chain; [exact D0|apply elem_of_mid]).
  assert (V2 : valid h nn) by (eapply valid_chain; [exact D|apply elem_of_mid]).
  destruct (NoDup_mid _ _ _ (chain_NoDup _ _ D)) as (ND1 & ND2 & ND3).
  destruct (NoDup_mid _ _ _ (chain_NoDup _ _ D0)) as (NE1 & NE2 & NE3).
  assert (Hne : n <> nn) by (intros ->; apply ND1, elem_of_mid).
  pose proof (chain_next h _ _ _ D0) as EN.
  assert (Hx : nf h n <> Some nn).
  { unfold nf. rewrite EN. destruct ws as [|w ws]; [done|]. intros [= ->]. apply ND1, elem_of_r. left. }
  pose proof (nf_replace_next h n nn W V1 V2 Hne Hx) as NF.
  pose proof (replace_next_frame n nn V1 V2) as G3.
  pose proof (replace_next_result h (Some n) (Some nn) ltac:(congruence) Hx) as R.
  pose proof (wf_replace_next h (Some n) (Some nn) W V1 V2) as W'.
  pose proof (proj1 (same_payload_replace_next h (Some n) (Some nn))) as L.
  destruct (chainf_cutb _ _ _ _ (inj_h h W) (c2f h W _ D)) as [B1 B2].
  destruct (chainf_cut _ _ _ _ (inj_cutb nn _ (inj_h h W)) B1) as [A1 A2].
  destruct (replace_next h (Some n) (Some nn)) as [h' r]. cbn [fst snd] in *.
  assert (Hn : n ∉ nn :: vs).
  { intros H. apply NE2. apply elem_of_app. by right. }
  split_and!; auto.
  - eapply chain_from; [done|exact L|exact NF| |].
    + apply chainf_join; [exact A1|by apply chainf_cut_frame|].
      intros x H1 H2. apply elem_of_app in H1 as [H1|H1].
      * apply (NE3 x H1). apply elem_of_app. by right.
      * apply elem_of_list_singleton in H1 as ->. done.
    + intros x Hx'. eapply valid_chain; [exact D0|].
      rewrite elem_of_app, elem_of_cons in Hx'. rewrite elem_of_app, elem_of_cons, elem_of_app. tauto.
  - eapply chain_from; [done|exact L|exact NF| |].
    + apply chainf_join_frame; [done| |].
      * intros H. apply NE2. by apply elem_of_l.
      * intros H. apply ND1. by apply elem_of_r.
    + intros x Hx'. eapply valid_chain; [exact D|]. apply elem_of_l. by apply elem_of_r.
  - rewrite R, (chain_prev h _ _ _ D), EN. f_equal; [|by destruct ws].
    rewrite last_app. destruct ws as [|w ws _] using rev_ind; [done|].
    change (n :: ws ++ [w]) with ((n :: ws) ++ [w]). by rewrite !last_snoc.
Qed.

(** [nn] is before [n] on the same chain: [nn ... n] is closed into a ring. *)
Lemma replace_next_before n nn us ws ys :
  chain h (us ++ nn :: ws ++ n :: ys) ->
  let '(h', r) := replace_next h (Some n) (Some nn) in
  nseg h' (Some nn) (nn :: ws ++ [n]) (Some nn) /\ chain h' us /\ chain h' ys /\
  r = (last us, head ys) /\ frame2 h h' n nn.
Proof.
  intros D.
  assert (D0 : chain h ((us ++ nn :: ws) ++ n :: ys)) by (rewrite <- app_assoc; exact D).
  assert (V1 : valid h n) by (eapply valid_chain; [exact D0|apply elem_of_mid]).
  assert (V2 : valid h nn) by (eapply valid_chain; [exact D|apply elem_of_mid]).
  destruct (NoDup_mid _ _ _ (chain_NoDup _ _ D)) as (ND1 & ND2 & ND3).
  destruct (NoDup_mid _ _ _ (chain_NoDup _ _ D0)) as (NE1 & NE2 & NE3).
  assert (Hne : n <> nn) by (intros ->; apply ND2, elem_of_mid).
  pose proof (chain_next h _ _ _ D0) as EN.
  assert (Hx : nf h n <> Some nn).
  { unfold nf. rewrite EN. destruct ys as [|y ys]; [done|]. intros [= ->]. apply ND2, elem_of_r. left. }
  pose proof (nf_replace_next h n nn W V1 V2 Hne Hx) as NF.
  pose proof (replace_next_frame n nn V1 V2) as G3.
  pose proof (replace_next_result h (Some n) (Some nn) ltac:(congruence) Hx) as R.
  pose proof (wf_replace_next h (Some n) (Some nn) W V1 V2) as W'.
  pose proof (proj1 (same_payload_replace_next h (Some n) (Some nn))) as L.
  destruct (chainf_cutb _ _ _ _ (inj_h h W) (c2f h W _ D)) as [B1 B2].
  destruct (chainf_cut _ (nn :: ws) _ _ (inj_cutb nn _ (inj_h h W)) B2) as [A1 A2].
  destruct (replace_next h (Some n) (Some nn)) as [h' r]. cbn [fst snd] in *.
  split_and!; auto.
  - apply path_nseg. apply (path_frame (join n nn (cut n (cutb nn (nf h))))); [intros; apply NF|].
    destruct A1 as [A1 _]. simpl hd_ptr in A1. change (nn :: ws ++ [n]) with ((nn :: ws) ++ [n]).
    apply path_app in A1 as (m & A1 & [-> A3]). apply path_app. exists (Some n). split.
    + eapply path_frame; [|exact A1]. intros x Hx'. unfold join. rewrite decide_False; [done|].
      intros ->. apply NE1. apply elem_of_app. by right.
    + split; [done|]. unfold join. simpl. by rewrite decide_True.
  - eapply chain_from; [done|exact L|exact NF| |].
    + apply chainf_join_frame; [apply chainf_cut_frame; [done|]| |done].
      all: intros H; apply NE1; by apply elem_of_l.
    + intros x Hx'. eapply valid_chain; [exact D|by apply elem_of_l].
  - eapply chain_from; [done|exact L|exact NF| |].
    + apply chainf_join_frame; [done|done|]. intros H. apply ND2. by apply elem_of_r.
    + intros x Hx'. eapply valid_chain; [exact D0|by apply elem_of_r].
  - by rewrite R, (chain_prev h _ _ _ D), EN.
Qed.

(** ** ReplacePrev *)
Lemma replace_prev_cross n nn xs ys us vs :
  chain h (xs ++ n :: ys) -> chain h (us ++ nn :: vs) -> n ∉ us ++ nn :: vs ->
  let '(h', r) := replace_prev h (Some n) (Some nn) in
  chain h' (us ++ nn :: n :: ys) /\ chain h' xs /\ chain h' vs /\ r = (last xs, head vs) /\ frame2 h h' n nn.
Proof.
  intros C D Hd.
  assert (V1 : valid h n) by (eapply valid_chain; [exact C|apply elem_of_mid]).
  assert (V2 : valid h nn) by (eapply valid_chain; [exact D|apply elem_of_mid]).
  assert (DJ : forall y, y ∈ us ++ nn :: vs -> y ∉ xs ++ n :: ys)
    by (eapply (disj_chains h _ _ n D C); [done|apply elem_of_mid]).
  assert (Hd' : nn ∉ xs ++ n :: ys) by (apply DJ, elem_of_mid).
  assert (Hne : n <> nn) by (intros ->; apply Hd, elem_of_mid).
  assert (Hx : prev_of h (Some n) <> Some nn).
  { intros E. apply Hd'. eapply chain_prev_in; [exact C|apply elem_of_mid|exact E]. }
  pose proof (nf_replace_prev h n nn W V1 V2 Hne Hx) as NF.
  pose proof (replace_prev_frame n nn V1 V2) as G3.
  pose proof (replace_prev_result h (Some n) (Some nn) ltac:(congruence) Hx) as R.
  pose proof (wf_replace_prev h (Some n) (Some nn) W V1 V2) as W'.
  pose proof (proj1 (same_payload_replace_prev h (Some n) (Some nn))) as L.
  destruct (NoDup_mid _ _ _ (chain_NoDup _ _ C)) as (NC1 & NC2 & NC3).
  destruct (NoDup_mid _ _ _ (chain_NoDup _ _ D)) as (ND1 & ND2 & ND3).
  destruct (chainf_cutb _ _ _ _ (inj_h h W) (c2f h W _ C)) as [B1 B2].
  assert (A0 : chainf (cutb n (nf h)) (us ++ nn :: vs)).
  { apply chainf_cutb_frame; [by apply c2f|done]. }
  destruct (chainf_cut _ _ _ _ (inj_cutb n _ (inj_h h W)) A0) as [A1 A2].
  destruct (replace_prev h (Some n) (Some nn)) as [h' r]. cbn [fst snd] in *.
  split_and!; auto.
  - eapply chain_from; [done|exact L|exact NF| |].
    + apply chainf_join; [exact A1|apply chainf_cut_frame; [exact B2|]|].
      * intros H. apply Hd'. apply elem_of_app. by right.
      * intros x H1 H2. apply (DJ x); [|apply elem_of_app; by right].
        apply elem_of_app in H1 as [H1|H1]; [by apply elem_of_l|].
        apply elem_of_list_singleton in H1 as ->. apply elem_of_mid.
    + intros x Hx'. rewrite elem_of_app, !elem_of_cons in Hx'.
      destruct Hx' as [H|[->|[->|H]]]; [|done|done|].
      * eapply valid_chain; [exact D|by apply elem_of_l].
      * eapply valid_chain; [exact C|by apply elem_of_r].
  - eapply chain_from; [done|exact L|exact NF| |].
    + apply chainf_join_frame; [apply chainf_cut_frame; [done|]| |done].
      all: intros H; apply Hd'; by apply elem_of_l.
    + intros x Hx'. eapply valid_chain; [exact C|by apply elem_of_l].
  - eapply chain_from; [done|exact L|exact NF| |].
    + apply chainf_join_frame; [done|done|]. intros H. apply Hd. by apply elem_of_r.
    + intros x Hx'. eapply valid_chain; [exact D|by apply elem_of_r].
  - by rewrite R, (chain_prev h _ _ _ C), (chain_next h _ _ _ D).
Qed.

Lemma replace_prev_before n nn us ws ys : ws <> [] ->
  chain h (us ++ nn :: ws ++ n :: ys) ->
  let '(h', r) := replace_prev h (Some n) (Some nn) in
  chain h' (us ++ nn :: n :: ys) /\ chain h' ws /\ r = (last ws, head ws) /\ frame2 h h' n nn.
Proof.
  intros Hws D0.
  assert (D : chain h ((us ++ nn :: ws) ++ n :: ys)) by (rewrite <- app_assoc; exact D0).
  assert (V1 : valid h n) by (eapply valid_chain; [exact D|apply elem_of_mid]).
  assert (V2 : valid h nn) by (eapply valid_chain; [exact D0|apply elem_of_mid]).
  destruct (NoDup_mid _ _ _ (chain_NoDup _ _ D)) as (ND1 & ND2 & ND3).
  destruct (NoDup_mid _ _ _ (chain_NoDup _ _ D0)) as (NE1 & NE2 & NE3).
  assert (Hne : n <> nn) by (intros ->; apply ND1, elem_of_mid).
  pose proof (chain_prev h _ _ _ D) as EP.
  assert (EL : last (us ++ nn :: ws) = last ws).
  { rewrite last_app. destruct ws as [|w ws _] using rev_ind; [done|].
    change (nn :: ws ++ [w]) with ((nn :: ws) ++ [w]). by rewrite !last_snoc. }
  assert (Hx : prev_of h (Some n) <> Some nn).
  { rewrite EP, EL. intros (l' & ->)%last_Some. apply NE2. apply elem_of_l, elem_of_mid. }
  pose proof (nf_replace_prev h n nn W V1 V2 Hne Hx) as NF.
  pose proof (replace_prev_frame n nn V1 V2) as G3.
  pose proof (replace_prev_result h (Some n) (Some nn) ltac:(congruence) Hx) as R.
  pose proof (wf_replace_prev h (Some n) (Some nn) W V1 V2) as W'.
  pose proof (proj1 (same_payload_replace_prev h (Some n) (Some nn))) as L.
  destruct (chainf_cutb _ _ _ _ (inj_h h W) (c2f h W _ D)) as [B1 B2].
  destruct (chainf_cut _ _ _ _ (inj_cutb n _ (inj_h h W)) B1) as [A1 A2].
  destruct (replace_prev h (Some n) (Some nn)) as [h' r]. cbn [fst snd] in *.
  assert (Hn : nn ∉ n :: ys).
  { intros H. apply NE2. apply elem_of_app. by right. }
  split_and!; auto.
  - eapply chain_from; [done|exact L|exact NF| |].
    + apply chainf_join; [exact A1|by apply chainf_cut_frame|].
      intros x H1 H2. apply elem_of_app in H1 as [H1|H1].
      * apply (NE3 x H1). apply elem_of_app. by right.
      * apply elem_of_list_singleton in H1 as ->. done.
    + intros x Hx'. eapply valid_chain; [exact D0|].
      rewrite elem_of_app, elem_of_cons in Hx'. rewrite elem_of_app, elem_of_cons, elem_of_app. tauto.
  - eapply chain_from; [done|exact L|exact NF| |].
    + apply chainf_join_frame; [done| |].
      * intros H. apply NE2. by apply elem_of_l.
      * intros H. apply ND1. by apply elem_of_r.
    + intros x Hx'. eapply valid_chain; [exact D|]. apply elem_of_l. by apply elem_of_r.
  - rewrite R, EP, EL, (chain_next h _ _ _ D0). by destruct ws.
Qed.

Lemma replace_prev_after n nn xs ws vs :
  chain h (xs ++ n :: ws ++ nn :: vs) ->
  let '(h', r) := replace_prev h (Some n) (Some nn) in
  nseg h' (Some n) (n :: ws ++ [nn]) (Some n) /\ chain h' xs /\ chain h' vs /\
  r = (last xs, head vs) /\ frame2 h h' n nn.
Proof.
  intros D.
  assert (D0 : chain h ((xs ++ n :: ws) ++ nn :: vs)) by (rewrite <- app_assoc; exact D).
  assert (V1 : valid h n) by (eapply valid_chain; [exact D|apply elem_of_mid]).
  assert (V2 : valid h nn) by (eapply valid_chain; [exact D0|apply elem_of_mid]).
  destruct (NoDup_mid _ _ _ (chain_NoDup _ _ D)) as (ND1 & ND2 & ND3).
  destruct (NoDup_mid _ _ _ (chain_NoDup _ _ D0)) as (NE1 & NE2 & NE3).
  assert (Hne : n <> nn) by (intros ->; apply ND2, elem_of_mid).
  pose proof (chain_prev h _ _ _ D) as EP.
  assert (Hx : prev_of h (Some n) <> Some nn).
  { rewrite EP. intros (l' & ->)%last_Some. apply NE1. apply elem_of_l. apply elem_of_mid. }
  pose proof (nf_replace_prev h n nn W V1 V2 Hne Hx) as NF.
  pose proof (replace_prev_frame n nn V1 V2) as G3.
  pose proof (replace_prev_result h (Some n) (Some nn) ltac:(congruence) Hx) as R.
  pose proof (wf_replace_prev h (Some n) (Some nn) W V1 V2) as W'.
  pose proof (proj1 (same_payload_replace_prev h (Some n) (Some nn))) as L.
  destruct (chainf_cutb _ _ _ _ (inj_h h W) (c2f h W _ D)) as [B1 B2].
  destruct (chainf_cut _ (n :: ws) _ _ (inj_cutb n _ (inj_h h W)) B2) as [A1 A2].
  destruct (replace_prev h (Some n) (Some nn)) as [h' r]. cbn [fst snd] in *.
  split_and!; auto.
  - apply path_nseg. apply (path_frame (join nn n (cut nn (cutb n (nf h))))); [intros; apply NF|].
    destruct A1 as [A1 _]. simpl hd_ptr in A1. change (n :: ws ++ [nn]) with ((n :: ws) ++ [nn]).
    apply path_app in A1 as (m & A1 & [-> A3]). apply path_app. exists (Some nn). split.
    + eapply path_frame; [|exact A1]. intros x Hx'. unfold join. rewrite decide_False; [done|].
      intros ->. apply NE1. apply elem_of_app. by right.
    + split; [done|]. unfold join. simpl. by rewrite decide_True.
  - eapply chain_from; [done|exact L|exact NF| |].
    + apply chainf_join_frame; [apply chainf_cut_frame; [done|]| |done].
      all: intros H; apply NE1; by apply elem_of_l.
    + intros x Hx'. eapply valid_chain; [exact D|by apply elem_of_l].
  - eapply chain_from; [done|exact L|exact NF| |].
    + apply chainf_join_frame; [done|done|]. intros H. apply ND2. by apply elem_of_r.
    + intros x Hx'. eapply valid_chain; [exact D0|by apply elem_of_r].
  - by rewrite R, EP, (chain_next h _ _ _ D0).
Qed.

(** ** Remove, Isolate, Take *)
Definition frame1 (h' : heap) (n : loc) : Prop :=
  forall zs, chain h zs -> n ∉ zs -> chain h' zs.

Lemma remove_next_chain n xs ys : chain h (xs ++ n :: ys) ->
  let '(h', r) := remove_next h (Some n) in
  chain h' (xs ++ [n]) /\ chain h' ys /\ r = head ys /\ frame1 h' n.
Proof.
  intros C.
  assert (V1 : valid h n) by (eapply valid_chain; [exact C|apply elem_of_mid]).
  pose proof (nf_remove_next h n W V1) as NF. pose proof (wf_remove_next h (Some n) W V1) as W'.
  pose proof (proj1 (same_payload_remove_next h (Some n))) as L.
  destruct (chainf_cut _ _ _ _ (inj_h h W) (c2f h W _ C)) as [A1 A2].
  assert (R : snd (remove_next h (Some n)) = next_of h (Some n)) by done.
  destruct (remove_next h (Some n)) as [h' r]. cbn [fst snd] in *. split_and!.
  - eapply chain_from; [done|exact L|exact NF|done|].
    intros x [Hx|Hx]%elem_of_app; [eapply valid_chain; [exact C|by apply elem_of_l]|].
    by apply elem_of_list_singleton in Hx as ->.
  - eapply chain_from; [done|exact L|exact NF|done|].
    intros x Hx. eapply valid_chain; [exact C|by apply elem_of_r].
  - by rewrite R, (chain_next h _ _ _ C).
  - intros zs Cz Hz. eapply chain_from; [done|exact L|exact NF| |intros x; by apply valid_chain].
    apply chainf_cut_frame; [by apply c2f|done].
Qed.
Lemma remove_prev_chain n xs ys : chain h (xs ++ n :: ys) ->
  let '(h', r) := remove_prev h (Some n) in
  chain h' xs /\ chain h' (n :: ys) /\ r = last xs /\ frame1 h' n.
Proof.
  intros C.
  assert (V1 : valid h n) by (eapply valid_chain; [exact C|apply elem_of_mid]).
  pose proof (nf_remove_prev h n W V1) as NF. pose proof (wf_remove_prev h (Some n) W V1) as W'.
  pose proof (proj1 (same_payload_remove_prev h (Some n))) as L.
  destruct (chainf_cutb _ _ _ _ (inj_h h W) (c2f h W _ C)) as [A1 A2].
  assert (R : snd (remove_prev h (Some n)) = prev_of h (Some n)) by done.
  destruct (remove_prev h (Some n)) as [h' r]. cbn [fst snd] in *. split_and!.
  - eapply chain_from; [done|exact L|exact NF|done|].
    intros x Hx. eapply valid_chain; [exact C|by apply elem_of_l].
  - eapply chain_from; [done|exact L|exact NF|done|].
    intros x Hx. eapply valid_chain; [exact C|]. apply elem_of_app. by right.
  - by rewrite R, (chain_prev h _ _ _ C).
  - intros zs Cz Hz. eapply chain_from; [done|exact L|exact NF| |intros x; by apply valid_chain].
    apply chainf_cutb_frame; [by apply c2f|done].
Qed.

Lemma isolate_chain n xs ys : chain h (xs ++ n :: ys) ->
  let h' := isolate h (Some n) in
  chain h' xs /\ chain h' [n] /\ chain h' ys /\ frame1 h' n.
Proof.
  intros C h'.
  assert (V1 : valid h n) by (eapply valid_chain; [exact C|apply elem_of_mid]).
  pose proof (nf_isolate h n W V1) as NF. pose proof (wf_isolate h (Some n) W V1) as W'.
  pose proof (proj1 (same_payload_isolate h (Some n))) as L. fold h' in NF, W', L.
  destruct (chainf_iso _ _ _ _ (inj_h h W) (c2f h W _ C)) as (A1 & A2 & A3).
  split_and!.
  - eapply chain_from; [done|exact L|exact NF|done|].
    intros x Hx. eapply valid_chain; [exact C|by apply elem_of_l].
  - eapply chain_from; [done|exact L|exact NF|done|].
    by intros x ->%elem_of_list_singleton.
  - eapply chain_from; [done|exact L|exact NF|done|].
    intros x Hx. eapply valid_chain; [exact C|by apply elem_of_r].
  - intros zs Cz Hz. eapply chain_from; [done|exact L|exact NF| |intros x; by apply valid_chain].
    apply chainf_iso_frame; [by apply c2f|done].
Qed.

Lemma take_next_chain n m xs ys : chain h (xs ++ n :: m :: ys) ->
  let '(h', r) := take_next h (Some n) in
  chain h' (xs ++ n :: ys) /\ chain h' [m] /\ r = Some m /\ frame2 h h' n m.
Proof.
  intros C.
  assert (C' : chain h ((xs ++ [n]) ++ m :: ys)) by (rewrite <- app_assoc; exact C).
  assert (V1 : valid h n) by (eapply valid_chain; [exact C|apply elem_of_mid]).
  assert (V2 : valid h m) by (eapply valid_chain; [exact C'|apply elem_of_mid]).
  pose proof (chain_next h _ _ _ C) as EN. simpl in EN.
  pose proof (chain_next h _ _ _ C') as EM.
  destruct (NoDup_mid _ _ _ (chain_NoDup _ _ C)) as (N1 & N2 & N3).
  destruct (NoDup_mid _ _ _ (chain_NoDup _ _ C')) as (M1 & M2 & M3).
  assert (HM : next_of h (Some m) <> Some n).
  { rewrite EM. destruct ys; [done|]. intros [= ->]. apply N2. right. left. }
  pose proof (proj1 (take_next_links h n m W V1 EN)) as NF. fold (nf (fst (take_next h (Some n)))) in NF.
  pose proof (wf_take_next h (Some n) W V1) as W'.
  pose proof (proj1 (same_payload_take_next h (Some n))) as L.
  assert (R : snd (take_next h (Some n)) = next_of h (Some n)) by done.
  destruct (chainf_iso _ _ _ _ (inj_h h W) (c2f h W _ C')) as (A1 & A2 & A3).
  destruct (take_next h (Some n)) as [h' r]. cbn [fst snd] in *.
  assert (NF' : forall x, nf h' x = match ys with [] => iso m (nf h) x | y :: _ => join n y (iso m (nf h)) x end).
  { intros x. unfold nf at 1. rewrite NF. destruct ys as [|y ys]; simpl in EM;
      unfold join, iso, cut, cutb, nf; repeat case_decide; sym_sat W; try congruence. }
  assert (VV : forall x, x ∈ xs ++ n :: ys -> valid h x).
  { intros x Hx. eapply valid_chain; [exact C|]. rewrite elem_of_app, !elem_of_cons in *. tauto. }
  split_and!; [| |congruence|].
  - eapply chain_from; [done|exact L|exact NF'| |done].
    destruct ys as [|y ys]; [done|]. apply chainf_join; [done|done|].
    intros x [H1|H1]%elem_of_app H2; [apply (N3 x H1); by right|].
    apply elem_of_list_singleton in H1 as ->. apply N2. by right.
  - eapply chain_from; [done|exact L|exact NF'| |by intros x ->%elem_of_list_singleton].
    destruct ys as [|y ys]; [done|]. apply chainf_join_frame; [done| |].
    + intros ->%elem_of_list_singleton. apply N2. left.
    + intros ->%elem_of_list_singleton. apply M2. left.
  - intros zs Cz Hz1 Hz2. eapply chain_from; [done|exact L|exact NF'| |intros x; by apply valid_chain].
    pose proof (chainf_iso_frame _ m _ (c2f h W _ Cz) Hz2).
    destruct ys as [|y ys]; [done|]. apply chainf_join_frame; [done|done|].
    intros Hy. apply Hz1. rewrite (chain_unique h zs _ y Cz C Hy); [apply elem_of_mid|].
    rewrite elem_of_app, !elem_of_cons. tauto.
Qed.

Lemma take_prev_chain n m xs ys : chain h (xs ++ m :: n :: ys) ->
  let '(h', r) := take_prev h (Some n) in
  chain h' (xs ++ n :: ys) /\ chain h' [m] /\ r = Some m /\ frame2 h h' n m.
Proof.
  intros C'.
  assert (C : chain h ((xs ++ [m]) ++ n :: ys)) by (rewrite <- app_assoc; exact C').
  assert (V1 : valid h n) by (eapply valid_chain; [exact C|apply elem_of_mid]).
  assert (V2 : valid h m) by (eapply valid_chain; [exact C'|apply elem_of_mid]).
  pose proof (chain_prev h _ _ _ C) as EN. rewrite last_snoc in EN.
  pose proof (chain_prev h _ _ _ C') as EM.
  destruct (NoDup_mid _ _ _ (chain_NoDup _ _ C)) as (N1 & N2 & N3).
  destruct (NoDup_mid _ _ _ (chain_NoDup _ _ C')) as (M1 & M2 & M3).
  assert (HM : prev_of h (Some m) <> Some n).
  { rewrite EM. intros (l' & ->)%last_Some. apply N1. apply elem_of_l, elem_of_mid. }
  pose proof (proj1 (take_prev_links h n m W V1 EN)) as NF.
  pose proof (wf_take_prev h (Some n) W V1) as W'.
  pose proof (proj1 (same_payload_take_prev h (Some n))) as L.
  assert (R : snd (take_prev h (Some n)) = prev_of h (Some n)) by done.
  destruct (chainf_iso _ _ _ _ (inj_h h W) (c2f h W _ C')) as (A1 & A2 & A3).
  destruct (take_prev h (Some n)) as [h' r]. cbn [fst snd] in *.
  assert (NF' : forall x, nf h' x = match last xs with None => iso m (nf h) x | Some y => join y n (iso m (nf h)) x end).
  { intros x. unfold nf at 1. rewrite NF. destruct (last xs) as [y|] eqn:El;
      unfold join, iso, cut, cutb, nf; repeat case_decide; sym_sat W; try congruence. }
  assert (VV : forall x, x ∈ xs ++ n :: ys -> valid h x).
  { intros x Hx. eapply valid_chain; [exact C'|]. rewrite elem_of_app, !elem_of_cons in *. tauto. }
  split_and!; [| |congruence|].
  - eapply chain_from; [done|exact L|exact NF'| |done].
    destruct xs as [|y xs _] using rev_ind; [done|]. rewrite last_snoc, <- app_assoc. simpl.
    apply chainf_join; [done|done|].
    intros x H1 [->|H2]%elem_of_cons; [apply N1; by apply elem_of_l|].
    apply (N3 x); [by apply elem_of_l|done].
  - eapply chain_from; [done|exact L|exact NF'| |by intros x ->%elem_of_list_singleton].
    destruct (last xs) as [y|] eqn:El; [|done]. apply chainf_join_frame; [done| |].
    + apply last_Some in El as [l' ->]. intros ->%elem_of_list_singleton. apply M1. apply elem_of_mid.
    + intros ->%elem_of_list_singleton. apply M2. left.
  - intros zs Cz Hz1 Hz2. eapply chain_from; [done|exact L|exact NF'| |intros x; by apply valid_chain].
    pose proof (chainf_iso_frame _ m _ (c2f h W _ Cz) Hz2).
    destruct (last xs) as [y|] eqn:El; [|done]. apply chainf_join_frame; [done| |done].
    apply last_Some in El as [l' ->].
    intros Hy. apply Hz1. rewrite (chain_unique h zs _ y Cz C' Hy); rewrite !elem_of_app, ?elem_of_cons; simpl; rewrite ?elem_of_cons; tauto.
Qed.
End ops2.
