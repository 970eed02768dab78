(** C65: editing the nodes of a file and saving it. *)
From Verif Require Import SpecEdit NodeProofs NodeInv NodeChain NodeHist NodeFinal Scope Ast SpecScope SpecText ResetSpec P_Node P_Scope P_Ast P_Text P_Lex Conc.

Lemma text_at_app h xs ys : text_at h (xs ++ ys) = text_at h xs ++ text_at h ys.
Proof. unfold text_at. by rewrite map_app, concat_app. Qed.
Lemma text_at_cons h x ys : text_at h (x :: ys) = text_of h (Some x) ++ text_at h ys.
Proof. done. Qed.
Lemma text_at_payload h h' ls : same_payload h h' -> text_at h' ls = text_at h ls.
Proof. intros [_ P]. unfold text_at. f_equal. apply map_ext. intros l. apply P. Qed.
Lemma document_nodes h scs ds : document h scs ds -> all_nodes h scs (map snd ds).
Proof.
  intros (_ & F & _). unfold all_nodes. induction F as [|o s scs ds (sc & -> & E & _ & C) _ IH]; [constructor|].
  cbn [map]. constructor; [|exact IH]. exists sc. split; [done|]. split; [done|]. by exists (fst s).
Qed.
Lemma document_written h scs ds : document h scs ds -> save_text h scs = Ok (written h ds).
Proof. intros D. rewrite (save_text_spec h scs _ (document_nodes _ _ _ D)). unfold written. by rewrite map_map. Qed.
Lemma nodes_of_app A B : nodes_of (A ++ B) = nodes_of A ++ nodes_of B.
Proof. unfold nodes_of. by rewrite map_app, concat_app. Qed.
Lemma nodes_of_cons s B : nodes_of (s :: B) = (fst s ++ snd s) ++ nodes_of B.
Proof. done. Qed.
Lemma written_app h A B : written h (A ++ B) = written h A ++ written h B.
Proof. unfold written. by rewrite map_app, concat_app. Qed.

(** Changing one scope of a document. *)
Lemma document_change h h' scs A s s' B (touched : list loc) :
  document h scs (A ++ s :: B) -> SpecNode.wf h' ->
  head (snd s') = head (snd s) -> snd s' <> [] -> chain h' (fst s' ++ snd s') ->
  (forall x, x ∈ fst s' ++ snd s' -> x ∈ fst s ++ snd s \/ x ∉ nodes_of (A ++ s :: B)) ->
  (forall x, x ∈ touched -> x ∈ fst s ++ snd s \/ x ∉ nodes_of (A ++ s :: B)) ->
  (forall zs, chain h zs -> (forall x, x ∈ touched -> x ∉ zs) -> chain h' zs) ->
  document h' scs (A ++ s' :: B).
Proof.
  intros (W & F & N) W' Hd Ne C Fr Tch K.
  assert (Dj : forall x, x ∈ fst s ++ snd s -> x ∉ nodes_of A /\ x ∉ nodes_of B).
  { rewrite nodes_of_app, nodes_of_cons in N. apply NoDup_app in N as (_ & N1 & N2). apply NoDup_app in N2 as (_ & N2 & _).
    intros x Hx. split; [intros Ha; apply (N1 x Ha), elem_of_app; by left|by apply N2]. }
  assert (Out : forall x, x ∈ fst s ++ snd s \/ x ∉ nodes_of (A ++ s :: B) -> x ∉ nodes_of A /\ x ∉ nodes_of B).
  { intros x [Hx|Hx]; [by apply Dj|]. rewrite nodes_of_app, nodes_of_cons in Hx. split; intros Hy; apply Hx; apply elem_of_app; [by left|right; apply elem_of_app; by right]. }
  assert (Sub : forall ds d, d ∈ ds -> forall x, x ∈ fst d ++ snd d -> x ∈ nodes_of ds).
  { intros ds d Hd' x Hx. unfold nodes_of. apply elem_of_list_In, in_concat. exists (fst d ++ snd d). split; [apply elem_of_list_In, elem_of_list_fmap; by exists d|by apply elem_of_list_In]. }
  assert (Keep : forall ds os, (forall d, d ∈ ds -> forall x, x ∈ touched -> x ∉ fst d ++ snd d) -> Forall2 (on_sheet h) os ds -> Forall2 (on_sheet h') os ds).
  { intros ds os Hds Fo. induction Fo as [|o d os ds (sc & -> & E & Nd & Cd) _ IH]; [constructor|].
    constructor; [|apply IH; intros e He; apply Hds; by right]. exists sc. split; [done|]. split; [done|]. split; [done|]. apply K; [done|]. intros x Hx. apply (Hds d); [by left|done]. }
  apply Forall2_app_inv_r in F as (s1 & s2 & F1 & F2 & ->). apply Forall2_cons_inv_r in F2 as (o & s3 & (sc & -> & E & Nd & Cd) & F3 & ->).
  split; [done|]. split.
  - apply Forall2_app; [|constructor].
    + apply Keep; [|done]. intros d Hd' x Hx Hy. apply (proj1 (Out x (Tch x Hx))). by eapply Sub.
    + exists sc. split; [done|]. split; [by rewrite Hd|]. done.
    + apply Keep; [|done]. intros d Hd' x Hx Hy. apply (proj2 (Out x (Tch x Hx))). by eapply Sub.
  - rewrite nodes_of_app, nodes_of_cons in N |- *. apply NoDup_app in N as (NA & N1 & N2). apply NoDup_app in N2 as (_ & _ & NB).
    apply NoDup_app. split; [done|]. split.
    + intros x Ha Hx. apply elem_of_app in Hx as [Hx|Hx]; [by destruct (Out x (Fr x Hx))|]. apply (N1 x Ha). apply elem_of_app. by right.
    + apply NoDup_app. split; [by eapply chain_NoDup|]. split; [|done]. intros x Hx. by destruct (Out x (Fr x Hx)).
Qed.

Definition done_edit h o scs A s' B t : Prop :=
  exists h' rs, exec h o = Ok (h', rs) /\ document h' scs (A ++ s' :: B) /\ text_at h' (snd s') = t /\
    (forall x, x ∈ nodes_of A ++ nodes_of B -> text_of h' (Some x) = text_of h (Some x)).
Lemma other_scopes h scs A s B x y : document h scs (A ++ s :: B) -> x ∈ fst s ++ snd s -> y ∈ nodes_of A ++ nodes_of B -> y <> x.
Proof.
  intros (_ & _ & N) Hx Hy ->. rewrite nodes_of_app, nodes_of_cons in N. apply NoDup_app in N as (_ & N1 & N2). apply NoDup_app in N2 as (_ & N2 & _).
  apply elem_of_app in Hy as [Hy|Hy]; [|by apply (N2 x)]. apply (N1 x Hy). apply elem_of_app. by left.
Qed.
Lemma in_document A s B x : x ∈ fst s ++ snd s -> x ∈ nodes_of (A ++ s :: B).
Proof. intros H. rewrite nodes_of_app, nodes_of_cons. apply elem_of_app. right. apply elem_of_app. by left. Qed.
Lemma edit_finish h h' rs o scs A s s' B t (touched : list loc) :
  document h scs (A ++ s :: B) -> exec h o = Ok (h', rs) -> SpecNode.wf h' -> same_payload h h' ->
  chain h' (fst s' ++ snd s') ->
  (forall zs, chain h zs -> (forall x, x ∈ touched -> x ∉ zs) -> chain h' zs) ->
  head (snd s') = head (snd s) -> snd s' <> [] ->
  (forall x, x ∈ fst s' ++ snd s' -> x ∈ fst s ++ snd s \/ x ∉ nodes_of (A ++ s :: B)) ->
  (forall x, x ∈ touched -> x ∈ fst s ++ snd s \/ x ∉ nodes_of (A ++ s :: B)) ->
  text_at h (snd s') = t ->
  done_edit h o scs A s' B t.
Proof.
  intros D E W' P C K Hd Ne Fr Tc T. exists h', rs. split; [done|]. split; [by eapply document_change|].
  split; [by rewrite (text_at_payload _ _ _ P)|]. intros x _. apply P.
Qed.
Lemma head_app_ne {X} (xs ys zs : list X) : xs <> [] -> head (xs ++ ys) = head (xs ++ zs).
Proof. by destruct xs. Qed.
Ltac members := cbn [fst snd]; intros *; repeat (rewrite ?elem_of_app, ?elem_of_cons, ?elem_of_nil); intuition (subst; auto).
Ltac texts := cbn [snd]; rewrite ?text_at_app, ?text_at_cons, ?app_nil_r, <- ?app_assoc; reflexivity.
Lemma nodes_of_pair lss : nodes_of (map (pair []) lss) = concat lss.
Proof. unfold nodes_of. rewrite map_map. cbn [fst snd app]. by rewrite map_id. Qed.
(** ** C65 *)
(** One call on a node of scope [s] of a file turns it into [s'] with text [t], and
    leaves the other scopes alone; Save then writes exactly that. *)
Theorem C65_edit : forall h scs A s B o s' t, document h scs (A ++ s :: B) ->
  edit h (fun x => x ∉ nodes_of (A ++ s :: B)) o s s' t ->
  exists h' rs, exec h o = Ok (h', rs) /\ document h' scs (A ++ s' :: B) /\
    save_text h' scs = Ok (written h A ++ t ++ written h B).
Proof.
  intros h scs A s B o s' t D Ed.
  assert (G : done_edit h o scs A s' B t).
  2: { destruct G as (h' & rs & E & D' & T & P). exists h', rs. split; [done|]. split; [done|]. rewrite (document_written _ _ _ D').
    rewrite written_app. unfold written at 2. cbn [map concat]. rewrite T. fold (written h' B). f_equal.
    assert (Q : forall ds, (forall x, x ∈ nodes_of ds -> text_of h' (Some x) = text_of h (Some x)) -> written h' ds = written h ds).
    { clear. induction ds as [|d ds IH]; intros H; [done|]. unfold written in *. cbn [map concat]. f_equal.
      - unfold text_at. f_equal. apply map_ext_in. intros x Hx. apply H. rewrite nodes_of_cons. apply elem_of_app. left. apply elem_of_app. right. by apply elem_of_list_In.
      - apply IH. intros x Hx. apply H. rewrite nodes_of_cons. apply elem_of_app. by right. }
    rewrite !Q; [done| |]; intros x Hx; apply P, elem_of_app; [by right|by left]. }
  pose proof D as (W & F & N).
  assert (Os : exists sc : scope, chain h (fst s ++ snd s)).
  { apply Forall2_app_inv_r in F as (s1 & s2 & F1 & F2 & _). apply Forall2_cons_inv_r in F2 as (o1 & s3 & (sc & _ & _ & _ & Cd) & _ & _). by exists sc. }
  destruct Os as (_ & C).
  assert (Vs : forall x, x ∈ fst s ++ snd s -> valid h x) by (intros x Hx; by eapply valid_chain).
  match type of Ed with edit _ ?P _ _ _ _ => assert (Oo : forall x, P x -> x ∉ nodes_of (A ++ s :: B)) by done; generalize dependent P end. intros out Ed Oo.
  destruct Ed as [b xs n ys t|b xs n ys k|b xs n ys us nn vs Cn Hout|b xs n ys us nn vs Cn Hout Nx|b n ys us nn vs Cn Hout|b xs n ys us nn vs Cn Hout|b xs n ys us nn vs Cn Hout Nx
    |b xs n m ys|b xs m n ys Nx|b m n ys|b xs n ys|b xs n ys Nx|b n ys|b xs n ys Nx|b n ys|b xs n ms ys k Nm]; cbn [fst snd] in *.
  - (* SetText *)
    assert (Hn : n ∈ b ++ xs ++ n :: ys) by members. pose proof (Vs n Hn) as Vn. exists (set_text h (Some n) t), []. split; [done|].
    assert (Nx : n ∉ xs ++ ys).
    { apply chain_NoDup in C. rewrite app_assoc in C. apply NoDup_app in C as (_ & C1 & C2). apply NoDup_cons in C2 as [C2 _]. intros [Hx|Hx]%elem_of_app; [|done].
      apply (C1 n); [apply elem_of_app; by right|by left]. }
    assert (K : forall zs, chain h zs -> chain (set_text h (Some n) t) zs) by (intros zs; apply seg_same_links; [apply length_set_text|intros; apply links_set_text]).
    split; [|split].
    + eapply (document_change h _ scs A _ _ B []); [exact D|by apply wf_set_text|done|by destruct xs|by apply K|by left|by intros x Hx%elem_of_nil|]. intros zs Cz _. by apply K.
    + cbn [snd]. rewrite text_at_app, text_at_cons. rewrite text_set_text by done. rewrite decide_True by done. f_equal; [|f_equal].
      * unfold text_at. f_equal. apply map_ext_in. intros x Hx. rewrite text_set_text by done. rewrite decide_False; [done|]. intros ->. apply Nx, elem_of_app. left. by apply elem_of_list_In.
      * unfold text_at. f_equal. apply map_ext_in. intros x Hx. rewrite text_set_text by done. rewrite decide_False; [done|]. intros ->. apply Nx, elem_of_app. right. by apply elem_of_list_In.
    + intros x Hx. rewrite text_set_text by done. rewrite decide_False; [done|]. by apply (other_scopes _ _ _ _ _ n x D).
  - (* SetKind *)
    exists (set_kind h (Some n) k), []. split; [done|].
    assert (K : forall zs, chain h zs -> chain (set_kind h (Some n) k) zs) by (intros zs; apply seg_same_links; [apply length_set_kind|intros; apply links_set_kind]).
    split; [|split].
    + eapply (document_change h _ scs A _ _ B []); [exact D|by apply wf_set_kind|done|by destruct xs|by apply K|by left|by intros x Hx%elem_of_nil|]. intros zs Cz _. by apply K.
    + cbn [snd]. unfold text_at. f_equal. apply map_ext. intros x. apply text_set_kind.
    + intros x _. apply text_set_kind.
  - pose proof (C02_insert_next_other_chain h n nn (b ++ xs) ys us vs W) as H. rewrite <- app_assoc in H. specialize (H C Cn).
    assert (Hn : n ∈ b ++ xs ++ n :: ys) by members. assert (No : n ∉ us ++ nn :: vs) by (intros Hx; by apply (Oo n (Hout n Hx)), in_document).
    specialize (H No). pose proof (same_payload_insert_next h (Some n) (Some nn)) as P.
    assert (Hnn : nn ∈ us ++ nn :: vs) by members. pose proof (wf_insert_next h (Some n) (Some nn) W (Vs n Hn) (valid_chain _ _ _ Cn Hnn)) as W'. pose proof (Oo nn (Hout nn Hnn)) as Onn.
    destruct (insert_next h (Some n) (Some nn)) as [h' r] eqn:E. destruct H as (C1 & _ & _ & _ & K). cbn [fst] in *.
    eapply (edit_finish h h' _ _ scs A _ (b, xs ++ n :: nn :: ys) B _ [n; nn] D); [cbn [exec]; rewrite E; reflexivity|exact W'|exact P|cbn [fst snd]; by rewrite app_assoc| |by destruct xs|by destruct xs|members|members|texts].
    intros zs Cz Hz. apply K; [done|apply Hz; members..].
  - pose proof (C02_insert_prev_other_chain h n nn (b ++ xs) ys us vs W) as H. rewrite <- app_assoc in H. specialize (H C Cn).
    assert (Hn : n ∈ b ++ xs ++ n :: ys) by members. assert (No : n ∉ us ++ nn :: vs) by (intros Hx; by apply (Oo n (Hout n Hx)), in_document).
    specialize (H No). pose proof (same_payload_insert_prev h (Some n) (Some nn)) as P.
    assert (Hnn : nn ∈ us ++ nn :: vs) by members. pose proof (wf_insert_prev h (Some n) (Some nn) W (Vs n Hn) (valid_chain _ _ _ Cn Hnn)) as W'. pose proof (Oo nn (Hout nn Hnn)) as Onn.
    destruct (insert_prev h (Some n) (Some nn)) as [h' r] eqn:E. destruct H as (C1 & _ & _ & _ & K). cbn [fst] in *.
    eapply (edit_finish h h' _ _ scs A _ (b, xs ++ nn :: n :: ys) B _ [n; nn] D); [cbn [exec]; rewrite E; reflexivity|exact W'|exact P|cbn [fst snd]; by rewrite app_assoc| |by apply head_app_ne|by destruct xs|members|members|texts].
    intros zs Cz Hz. apply K; [done|apply Hz; members..].
  - pose proof (C02_insert_prev_other_chain h n nn b ys us vs W C Cn) as H.
    assert (Hn : n ∈ b ++ n :: ys) by members. assert (No : n ∉ us ++ nn :: vs) by (intros Hx; by apply (Oo n (Hout n Hx)), in_document).
    specialize (H No). pose proof (same_payload_insert_prev h (Some n) (Some nn)) as P.
    assert (Hnn : nn ∈ us ++ nn :: vs) by members. pose proof (wf_insert_prev h (Some n) (Some nn) W (Vs n Hn) (valid_chain _ _ _ Cn Hnn)) as W'. pose proof (Oo nn (Hout nn Hnn)) as Onn.
    destruct (insert_prev h (Some n) (Some nn)) as [h' r] eqn:E. destruct H as (C1 & _ & _ & _ & K). cbn [fst] in *.
    eapply (edit_finish h h' _ _ scs A _ (b ++ [nn], n :: ys) B _ [n; nn] D); [cbn [exec]; rewrite E; reflexivity|exact W'|exact P|cbn [fst snd]; by rewrite <- app_assoc| |done|done|members|members|texts].
    intros zs Cz Hz. apply K; [done|apply Hz; members..].
  - pose proof (C03_replace_next h n nn (b ++ xs) ys us vs W) as H. rewrite <- app_assoc in H. specialize (H C Cn).
    assert (Hn : n ∈ b ++ xs ++ n :: ys) by members. assert (No : n ∉ us ++ nn :: vs) by (intros Hx; by apply (Oo n (Hout n Hx)), in_document).
    specialize (H No). pose proof (same_payload_replace_next h (Some n) (Some nn)) as P.
    assert (Hnn : nn ∈ us ++ nn :: vs) by members. pose proof (wf_replace_next h (Some n) (Some nn) W (Vs n Hn) (valid_chain _ _ _ Cn Hnn)) as W'. pose proof (Oo nn (Hout nn Hnn)) as Onn.
    assert (Ov : forall x, x ∈ vs -> x ∉ nodes_of (A ++ (b, xs ++ n :: ys) :: B)) by (intros x Hx; apply Oo, Hout; members).
    destruct (replace_next h (Some n) (Some nn)) as [h' r] eqn:E. destruct H as (C1 & _ & _ & _ & K). cbn [fst] in *.
    eapply (edit_finish h h' _ _ scs A _ (b, xs ++ n :: nn :: vs) B _ [n; nn] D); [cbn [exec]; rewrite E; reflexivity|exact W'|exact P|cbn [fst snd]; by rewrite app_assoc| |by destruct xs|by destruct xs|members; right; by apply Ov|members|texts].
    intros zs Cz Hz. apply K; [done|apply Hz; members..].
  - pose proof (C03_replace_prev h n nn (b ++ xs) ys us vs W) as H. rewrite <- app_assoc in H. specialize (H C Cn).
    assert (Hn : n ∈ b ++ xs ++ n :: ys) by members. assert (No : n ∉ us ++ nn :: vs) by (intros Hx; by apply (Oo n (Hout n Hx)), in_document).
    specialize (H No). pose proof (same_payload_replace_prev h (Some n) (Some nn)) as P.
    assert (Hnn : nn ∈ us ++ nn :: vs) by members. pose proof (wf_replace_prev h (Some n) (Some nn) W (Vs n Hn) (valid_chain _ _ _ Cn Hnn)) as W'. pose proof (Oo nn (Hout nn Hnn)) as Onn.
    destruct (replace_prev h (Some n) (Some nn)) as [h' r] eqn:E. destruct H as (_ & C1 & _ & _ & K). cbn [fst] in *.
    eapply (edit_finish h h' _ _ scs A _ (b, xs) B _ [n; nn] D); [cbn [exec]; rewrite E; reflexivity|exact W'|exact P|exact C1| |by destruct xs|by destruct xs|members|members|texts].
    intros zs Cz Hz. apply K; [done|apply Hz; members..].
  - pose proof (C04_take_next h n m (b ++ xs) ys W) as H. rewrite <- app_assoc in H. specialize (H C).
    assert (Hn : n ∈ b ++ xs ++ n :: m :: ys) by members. pose proof (same_payload_take_next h (Some n)) as P. pose proof (wf_take_next h (Some n) W (Vs n Hn)) as W'.
    destruct (take_next h (Some n)) as [h' r] eqn:E. destruct H as (C1 & _ & _ & K). cbn [fst] in *.
    eapply (edit_finish h h' _ _ scs A _ (b, xs ++ n :: ys) B _ [n; m] D); [cbn [exec]; rewrite E; reflexivity|exact W'|exact P|cbn [fst snd]; by rewrite app_assoc| |by destruct xs|by destruct xs|members|members|texts].
    intros zs Cz Hz. apply K; [done|apply Hz; members..].
  - pose proof (C04_take_prev h n m (b ++ xs) ys W) as H. rewrite <- app_assoc in H. specialize (H C).
    assert (Hn : n ∈ b ++ xs ++ m :: n :: ys) by members. pose proof (same_payload_take_prev h (Some n)) as P. pose proof (wf_take_prev h (Some n) W (Vs n Hn)) as W'.
    destruct (take_prev h (Some n)) as [h' r] eqn:E. destruct H as (C1 & _ & _ & K). cbn [fst] in *.
    eapply (edit_finish h h' _ _ scs A _ (b, xs ++ n :: ys) B _ [n; m] D); [cbn [exec]; rewrite E; reflexivity|exact W'|exact P|cbn [fst snd]; by rewrite app_assoc| |by apply head_app_ne|by destruct xs|members|members|texts].
    intros zs Cz Hz. apply K; [done|apply Hz; members..].
  - pose proof (C04_take_prev h n m b ys W C) as H.
    assert (Hn : n ∈ b ++ m :: n :: ys) by members. pose proof (same_payload_take_prev h (Some n)) as P. pose proof (wf_take_prev h (Some n) W (Vs n Hn)) as W'.
    destruct (take_prev h (Some n)) as [h' r] eqn:E. destruct H as (_ & C1 & _ & K). cbn [fst] in *.
    eapply (edit_finish h h' _ _ scs A _ ([], [m]) B _ [n; m] D); [cbn [exec]; rewrite E; reflexivity|exact W'|exact P|exact C1| |done|done|members|members|texts].
    intros zs Cz Hz. apply K; [done|apply Hz; members..].
  - pose proof (C05_remove_next h n (b ++ xs) ys W) as H. rewrite <- app_assoc in H. specialize (H C).
    assert (Hn : n ∈ b ++ xs ++ n :: ys) by members. pose proof (same_payload_remove_next h (Some n)) as P. pose proof (wf_remove_next h (Some n) W (Vs n Hn)) as W'.
    destruct (remove_next h (Some n)) as [h' r] eqn:E. destruct H as (C1 & _ & _ & K). cbn [fst] in *.
    eapply (edit_finish h h' _ _ scs A _ (b, xs ++ [n]) B _ [n] D); [cbn [exec]; rewrite E; reflexivity|exact W'|exact P|cbn [fst snd]; by rewrite app_assoc| |by destruct xs|by destruct xs|members|members|texts].
    intros zs Cz Hz. apply K; [done|apply Hz; members..].
  - pose proof (C05_remove_prev h n (b ++ xs) ys W) as H. rewrite <- app_assoc in H. specialize (H C).
    assert (Hn : n ∈ b ++ xs ++ n :: ys) by members. pose proof (same_payload_remove_prev h (Some n)) as P. pose proof (wf_remove_prev h (Some n) W (Vs n Hn)) as W'.
    destruct (remove_prev h (Some n)) as [h' r] eqn:E. destruct H as (C1 & _ & _ & K). cbn [fst] in *.
    eapply (edit_finish h h' _ _ scs A _ (b, xs) B _ [n] D); [cbn [exec]; rewrite E; reflexivity|exact W'|exact P|exact C1| |by destruct xs|by destruct xs|members|members|texts].
    intros zs Cz Hz. apply K; [done|apply Hz; members..].
  - pose proof (C05_remove_prev h n b ys W C) as H.
    assert (Hn : n ∈ b ++ n :: ys) by members. pose proof (same_payload_remove_prev h (Some n)) as P. pose proof (wf_remove_prev h (Some n) W (Vs n Hn)) as W'.
    destruct (remove_prev h (Some n)) as [h' r] eqn:E. destruct H as (_ & C1 & _ & K). cbn [fst] in *.
    eapply (edit_finish h h' _ _ scs A _ ([], n :: ys) B _ [n] D); [cbn [exec]; rewrite E; reflexivity|exact W'|exact P|exact C1| |done|done|members|members|texts].
    intros zs Cz Hz. apply K; [done|apply Hz; members..].
  - pose proof (C06_isolate h n (b ++ xs) ys W) as H. rewrite <- app_assoc in H. specialize (H C).
    assert (Hn : n ∈ b ++ xs ++ n :: ys) by members. pose proof (same_payload_isolate h (Some n)) as P. pose proof (wf_isolate h (Some n) W (Vs n Hn)) as W'.
    cbv zeta in H. destruct H as (C1 & _ & _ & K).
    eapply (edit_finish h (isolate h (Some n)) _ _ scs A _ (b, xs) B _ [n] D); [reflexivity|exact W'|exact P|exact C1| |by destruct xs|by destruct xs|members|members|texts].
    intros zs Cz Hz. apply K; [done|apply Hz; members..].
  - pose proof (C06_isolate h n b ys W C) as H.
    assert (Hn : n ∈ b ++ n :: ys) by members. pose proof (same_payload_isolate h (Some n)) as P. pose proof (wf_isolate h (Some n) W (Vs n Hn)) as W'.
    cbv zeta in H. destruct H as (_ & C1 & _ & K).
    eapply (edit_finish h (isolate h (Some n)) _ _ scs A _ ([], [n]) B _ [n] D); [reflexivity|exact W'|exact P|exact C1| |done|done|members|members|texts].
    intros zs Cz Hz. apply K; [done|apply Hz; members..].
  - pose proof (C12_combine_next_run h k (b ++ xs) n ms ys W Nm) as H. rewrite <- app_assoc in H. specialize (H C). destruct H as (h' & E & C1 & _ & _ & K & T).
    assert (Hn : n ∈ b ++ xs ++ n :: ms ++ ys) by members.
    assert (Lm : Forall (live h) (map Some ms)). { apply Forall_forall. intros p Hp. apply elem_of_list_fmap in Hp as (m & -> & Hm). apply Vs. members. }
    destruct (C12_combine_next h n k (map Some ms) W (Vs n Hn) Lm) as (h2 & E2 & W' & L & _ & _ & _ & _ & Sn & _). rewrite E2 in E. injection E as <-.
    assert (Nx : n ∉ xs). { apply chain_NoDup in C. rewrite app_assoc in C. apply NoDup_app in C as (_ & C2 & _). intros Hx. apply (C2 n); [apply elem_of_app; by right|by left]. }
    exists h2, [Some n]. split; [cbn [exec]; rewrite E2; reflexivity|]. split; [|split].
    + eapply (document_change h _ scs A _ _ B (n :: ms)); [exact D|exact W'|by destruct xs|by destruct xs|cbn [fst snd]; by rewrite app_assoc|members|members|].
      intros zs Cz Hz. apply K; [done|apply Hz; members|]. intros m Hm. apply Hz. members.
    + cbn [snd]. rewrite text_at_app, text_at_cons, T. unfold text_at at 2. cbn [map concat]. rewrite app_nil_r. f_equal.
      unfold text_at. f_equal. apply map_ext_in. intros x Hx. destruct (Sn x) as (_ & _ & Q); [|done]. intros ->. by apply Nx, elem_of_list_In.
    + intros x Hx. destruct (Sn x) as (_ & _ & Q); [|done]. by apply (other_scopes _ _ _ _ _ n x D).
Qed.

(** After parsing, the scopes are a document with nothing before their nodes. *)
Theorem C65_parsed : forall ord h startLine text h' scs, any_order ord -> SpecNode.wf h ->
  parse_scope ord h startLine text = Ok (h', scs) ->
  exists lss, document h' (map Some scs) (map (pair []) lss).
Proof.
  intros ord h n text h' scs O W E. destruct (parse_chains ord h n text h' scs O W E) as (W' & _ & cs & ND & _ & F & _).
  destruct (C29_tokeniser_terminates ord h text O W) as (h1 & ls & Tk & _).
  destruct (C34_partition ord h n text h1 ls h' scs O W Tk E) as (g & gs & El & _ & F').
  assert (NN : Forall (fun sc => sc_node sc <> None) scs).
  { clear -F'. induction F' as [|sc gr scs gs (A & B & _) F IH]; constructor; [|done]. rewrite A. by destruct gr. }
  exists cs. split; [done|]. split.
  - clear -F NN. induction F as [|sc c scs cs [A B] F IH]; [constructor|]. inversion_clear NN as [|? ? N1 N2]. cbn [map]. constructor; [|by apply IH].
    exists sc. cbn [fst snd app]. split; [done|]. split; [done|]. split; [|done]. intros ->. by apply N1.
  - replace (nodes_of (map (pair []) cs)) with (concat cs); [done|]. unfold nodes_of. rewrite map_map. cbn [fst snd app]. by rewrite map_id.
Qed.
(** Parsing, one edit, saving: if every declaration keeps its text and the file
    starts with one, the text saved is that of the file with the edit made. *)
Theorem C65_parse_edit_save : forall ord h startLine text h1 ls h' scs gs, any_order ord -> SpecNode.wf h ->
  tokenised ord h text h1 ls -> parse_scope ord h startLine text = Ok (h', scs) ->
  pieces h1 (startLine - 1) ls [] gs -> Forall (fun gr => keeps (map (fun l => kind_of h1 (Some l)) gr)) gs ->
  exists lss, document h' (map Some scs) (map (pair []) lss) /\ text = concat (map (text_at h') lss) /\
    forall A s B o s' t, map (pair []) lss = A ++ s :: B -> edit h' (fun x => x ∉ nodes_of (A ++ s :: B)) o s s' t ->
      text = written h' A ++ text_at h' (snd s) ++ written h' B /\
      exists h2 rs, exec h' o = Ok (h2, rs) /\ document h2 (map Some scs) (A ++ s' :: B) /\
        save_text h2 (map Some scs) = Ok (written h' A ++ t ++ written h' B).
Proof.
  intros ord h n text h1 ls h' scs gs O W Tk E HP Hk.
  destruct (C65_parsed ord h n text h' scs O W E) as (lss & D). exists lss. split; [done|].
  destruct (C49_text_of_parsed ord h n text h1 ls h' scs [] gs O W Tk E HP Hk) as (lss' & A' & Et). change (text_at h1 []) with (@nil ascii) in Et. cbn [app] in Et.
  assert (Ew : text = written h' (map (pair []) lss)).
  { pose proof (document_written _ _ _ D) as E1. rewrite (save_text_spec _ _ _ A') in E1. injection E1 as <-. done. }
  split; [rewrite Ew; unfold written; by rewrite map_map|].
  intros A s B o s' t Es Ed. rewrite Es in D, Ew. split; [rewrite Ew, written_app; done|]. by apply C65_edit with (s := s).
Qed.

Lemma document_extend h h' scs ds : document h scs ds -> SpecNode.wf h' -> h `prefix_of` h' -> document h' scs ds.
Proof.
  intros (W & F & N) W' [t ->]. split; [done|]. split; [|done]. eapply Forall2_impl; [exact F|]. intros o s (sc & -> & Hd & Ne & C). exists sc. split; [done|]. split; [done|]. split; [done|].
  apply (seg_frame h); [rewrite app_length; lia| |done]. intros l Hl. apply nodes_same_links. apply lookup_app_l. apply (valid_chain _ _ l) in C; [exact C|done].
Qed.
Lemma makes_extend h o h1 rs : SpecNode.wf h -> makes o -> legal h o -> exec h o = Ok (h1, rs) -> SpecNode.wf h1 /\ h `prefix_of` h1.
Proof.
  intros W M L E. split; [apply (NodeHist.hist_wf h [o] h1 W); eapply hist_cons; [done|exact E|constructor]|].
  destruct o; try done; cbn [exec] in E.
  - pose proof (new_node_spec h line text kinds) as N. destruct (new_node h line text kinds) as [h2 m]. assert (h2 = h1) as -> by congruence. apply N.
  - destruct texts as [|t ts]; [cbn in E; by assert (h = h1) as -> by congruence|].
    pose proof (C14_new_nodes h line t ts) as N. destruct (new_nodes h line (t :: ts)) as [h2 r]. cbn [fst] in E. assert (h2 = h1) as -> by congruence. destruct N as (ls & _ & P & _). exact P.
  - destruct (copy h n rel) as [[h2 r]| |] eqn:Ec; try discriminate E. cbn in E. assert (h2 = h1) as -> by congruence.
    apply Forall_cons in L as [L _]. apply (NodeHist.wf_copy h n rel h1 r W L Ec).
Qed.
(** A sequence of edits: the file stays one, whatever is done, and Save writes it. *)
Theorem C65_session : forall ops h scs ds h' ds', document h scs ds -> session h ds ops h' ds' ->
  document h' scs ds' /\ save_text h' scs = Ok (written h' ds').
Proof.
  intros ops h scs ds h' ds' D Se. revert D. induction Se as [h ds|h ds o h1 rs ops h2 ds2 M L E _ IH|h A s B o s' t h1 rs ops h2 ds2 Ed E _ IH]; intros D.
  - split; [done|]. by apply document_written.
  - destruct (makes_extend h o h1 rs (proj1 D) M L E) as [W1 P]. apply IH. by apply (document_extend h).
  - destruct (C65_edit _ _ _ _ _ _ _ _ D Ed) as (h1' & rs' & E' & D' & _). rewrite E in E'. injection E' as <- _. by apply IH.
Qed.
(** Moving a node from one scope to another. *)
Lemma document_split h scs A s B s2 C : document h scs (A ++ s :: B ++ s2 :: C) ->
  chain h (fst s ++ snd s) /\ chain h (fst s2 ++ snd s2) /\ (forall x, x ∈ fst s ++ snd s -> x ∉ fst s2 ++ snd s2).
Proof.
  intros (_ & F & N). split; [|split].
  - apply Forall2_app_inv_r in F as (a & c & _ & F & _). apply Forall2_cons_inv_r in F as (o & d & (sc & _ & _ & _ & Cd) & _ & _). done.
  - apply Forall2_app_inv_r in F as (a & c & _ & F & _). apply Forall2_cons_inv_r in F as (o & d & _ & F & _).
    apply Forall2_app_inv_r in F as (a' & c' & _ & F & _). apply Forall2_cons_inv_r in F as (o' & d' & (sc & _ & _ & _ & Cd) & _ & _). done.
  - rewrite nodes_of_app, nodes_of_cons, nodes_of_app, nodes_of_cons in N. apply NoDup_app in N as (_ & _ & N). apply NoDup_app in N as (_ & N & _).
    intros x Hx Hy. apply (N x Hx). apply elem_of_app. right. apply elem_of_app. by left.
Qed.
Lemma document_change2 h h' scs A s B s2 C s' s2' (touched : list loc) :
  document h scs (A ++ s :: B ++ s2 :: C) -> SpecNode.wf h' ->
  head (snd s') = head (snd s) -> snd s' <> [] -> chain h' (fst s' ++ snd s') ->
  head (snd s2') = head (snd s2) -> snd s2' <> [] -> chain h' (fst s2' ++ snd s2') ->
  (forall x, x ∈ fst s' ++ snd s' -> x ∉ fst s2' ++ snd s2') ->
  (forall x, x ∈ (fst s' ++ snd s') ++ (fst s2' ++ snd s2') ++ touched -> x ∈ (fst s ++ snd s) ++ (fst s2 ++ snd s2)) ->
  (forall zs, chain h zs -> (forall x, x ∈ touched -> x ∉ zs) -> chain h' zs) ->
  document h' scs (A ++ s' :: B ++ s2' :: C).
Proof.
  intros D W' H1 N1 C1 H2 N2 C2 Dj Sub K. pose proof D as (W & F & N). pose proof (document_split _ _ _ _ _ _ _ D) as (C0 & C0' & Dj0).
  assert (Out : forall x, x ∈ (fst s ++ snd s) ++ (fst s2 ++ snd s2) -> x ∉ nodes_of A /\ x ∉ nodes_of B /\ x ∉ nodes_of C).
  { rewrite nodes_of_app, nodes_of_cons, nodes_of_app, nodes_of_cons in N. apply NoDup_app in N as (_ & Na & N). apply NoDup_app in N as (_ & Ns & N). apply NoDup_app in N as (_ & Nb & N). apply NoDup_app in N as (_ & Nc & _).
    intros x [Hx|Hx]%elem_of_app.
    - split; [intros Hy; apply (Na x Hy); apply elem_of_app; by left|]. split; intros Hy; apply (Ns x Hx); apply elem_of_app; [by left|]. right. apply elem_of_app. by right.
    - split; [intros Hy; apply (Na x Hy); apply elem_of_app; right; apply elem_of_app; right; apply elem_of_app; by left|]. split; [intros Hy; apply (Nb x Hy); apply elem_of_app; by left|]. by apply Nc. }
  assert (SubN : forall ds d, d ∈ ds -> forall x, x ∈ fst d ++ snd d -> x ∈ nodes_of ds).
  { intros ds d Hd' x Hx. unfold nodes_of. apply elem_of_list_In, in_concat. exists (fst d ++ snd d). split; [apply elem_of_list_In, elem_of_list_fmap; by exists d|by apply elem_of_list_In]. }
  assert (Keep : forall ds os, (forall x, x ∈ touched -> x ∉ nodes_of ds) -> Forall2 (on_sheet h) os ds -> Forall2 (on_sheet h') os ds).
  { intros ds os Hds Fo. induction Fo as [|o d os ds (sc & -> & E & Nd & Cd) _ IH]; [constructor|].
    constructor; [|apply IH; intros x Hx Hy; apply (Hds x Hx); rewrite nodes_of_cons; apply elem_of_app; by right]. exists sc. split; [done|]. split; [done|]. split; [done|]. apply K; [done|]. intros x Hx Hy. apply (Hds x Hx). rewrite nodes_of_cons. apply elem_of_app. by left. }
  assert (Tc : forall x, x ∈ touched -> x ∉ nodes_of A /\ x ∉ nodes_of B /\ x ∉ nodes_of C) by (intros x Hx; apply Out, Sub; apply elem_of_app; right; apply elem_of_app; by right).
  apply Forall2_app_inv_r in F as (a & c & Fa & F & ->). apply Forall2_cons_inv_r in F as (o & d & (sc & -> & Es & _ & _) & F & ->).
  apply Forall2_app_inv_r in F as (a' & c' & Fb & F & ->). apply Forall2_cons_inv_r in F as (o' & d' & (sc' & -> & Es' & _ & _) & Fc & ->).
  split; [done|]. split.
  - apply Forall2_app; [apply Keep; [|done]; intros x Hx; apply (Tc x Hx)|]. constructor; [exists sc; split; [done|]; split; [by rewrite H1|done]|].
    apply Forall2_app; [apply Keep; [|done]; intros x Hx; apply (Tc x Hx)|]. constructor; [exists sc'; split; [done|]; split; [by rewrite H2|done]|]. apply Keep; [|done]. intros x Hx; apply (Tc x Hx).
  - rewrite nodes_of_app, nodes_of_cons, nodes_of_app, nodes_of_cons in N |- *.
    apply NoDup_app in N as (N0 & Na & N). apply NoDup_app in N as (_ & Ns & N). apply NoDup_app in N as (Nbb & Nb & N). apply NoDup_app in N as (_ & Nc & Ncc).
    assert (O1 : forall x, x ∈ fst s' ++ snd s' -> x ∉ nodes_of A /\ x ∉ nodes_of B /\ x ∉ nodes_of C) by (intros x Hx; apply Out, Sub, elem_of_app; by left).
    assert (O2 : forall x, x ∈ fst s2' ++ snd s2' -> x ∉ nodes_of A /\ x ∉ nodes_of B /\ x ∉ nodes_of C) by (intros x Hx; apply Out, Sub, elem_of_app; right; apply elem_of_app; by left).
    apply NoDup_app. split; [done|]. split.
    { intros x Ha [Hx|[Hx|[Hx|Hx]%elem_of_app]%elem_of_app]%elem_of_app; [by destruct (O1 x Hx)| |by destruct (O2 x Hx)|].
      - apply (Na x Ha). apply elem_of_app. right. apply elem_of_app. by left.
      - apply (Na x Ha). apply elem_of_app. right. apply elem_of_app. right. apply elem_of_app. by right. }
    apply NoDup_app. split; [by eapply chain_NoDup|]. split.
    { intros x Hx [Hy|[Hy|Hy]%elem_of_app]%elem_of_app; [by destruct (O1 x Hx) as (_ & ? & _)|by apply (Dj x Hx)|by destruct (O1 x Hx) as (_ & _ & ?)]. }
    apply NoDup_app. split; [done|]. split.
    { intros x Hx [Hy|Hy]%elem_of_app; [by destruct (O2 x Hy) as (_ & ? & _)|]. apply (Nb x Hx). apply elem_of_app. by right. }
    apply NoDup_app. split; [by eapply chain_NoDup|]. split; [|done]. intros x Hx Hy. by destruct (O2 x Hx) as (_ & _ & ?).
Qed.
Lemma written_payload h h' ds : same_payload h h' -> written h' ds = written h ds.
Proof. intros P. unfold written. f_equal. apply map_ext. intros s. by apply text_at_payload. Qed.
(** TakeNext and then InsertNext move a node: nothing is lost. *)
Theorem C65_move : forall h scs A b xs n m ys B c us k vs C,
  document h scs (A ++ (b, xs ++ n :: m :: ys) :: B ++ (c, us ++ k :: vs) :: C) ->
  exists h1 h2 rs, exec h (OTakeNext (Some n)) = Ok (h1, [Some m]) /\ exec h1 (OInsertNext (Some k) (Some m)) = Ok (h2, rs) /\
    document h2 scs (A ++ (b, xs ++ n :: ys) :: B ++ (c, us ++ k :: m :: vs) :: C) /\
    save_text h2 scs = Ok (written h (A ++ (b, xs ++ n :: ys) :: B ++ (c, us ++ k :: m :: vs) :: C)).
Proof.
  intros h scs A b xs n m ys B c us k vs C D. destruct (document_split _ _ _ _ _ _ _ D) as (C1 & C2 & Dj). cbn [fst snd] in *. pose proof D as (W & _).
  assert (Vn : valid h n) by (eapply valid_chain; [exact C1|members]). assert (Vm : valid h m) by (eapply valid_chain; [exact C1|members]). assert (Vk : valid h k) by (eapply valid_chain; [exact C2|members]).
  pose proof (C04_take_next h n m (b ++ xs) ys W) as H. rewrite <- app_assoc in H. specialize (H C1).
  pose proof (same_payload_take_next h (Some n)) as P1. pose proof (wf_take_next h (Some n) W Vn) as W1. cbn [exec].
  destruct (take_next h (Some n)) as [h1 r]. cbn [fst snd] in *. destruct H as (T1 & T2 & -> & K1). exists h1.
  assert (Nn : n ∉ c ++ us ++ k :: vs) by (apply Dj; members). assert (Nm : m ∉ c ++ us ++ k :: vs) by (apply Dj; members).
  pose proof (K1 _ C2 Nn Nm) as C2'.
  pose proof (C02_insert_next_other_chain h1 k m (c ++ us) vs [] [] W1) as H. rewrite <- app_assoc in H. specialize (H C2' T2).
  assert (Nk : k <> m) by (intros ->; apply Nm; members). specialize (H ltac:(intros Hk; apply Nk; by apply elem_of_list_singleton in Hk)).
  pose proof (same_payload_insert_next h1 (Some k) (Some m)) as P2.
  assert (Vk1 : valid h1 k) by (unfold valid; by rewrite (proj1 P1)). assert (Vm1 : valid h1 m) by (unfold valid; by rewrite (proj1 P1)).
  pose proof (wf_insert_next h1 (Some k) (Some m) W1 Vk1 Vm1) as W2. destruct (insert_next h1 (Some k) (Some m)) as [h2 r2]. cbn [fst snd] in *. destruct H as (I1 & _ & _ & -> & K2).
  exists h2, [None; None]. split; [done|]. split; [done|].
  assert (Nk2 : k ∉ (b ++ xs) ++ n :: ys).
  { intros Hk. apply (Dj k); [|members]. revert Hk. members. }
  assert (Nm2 : m ∉ (b ++ xs) ++ n :: ys).
  { apply chain_NoDup in C1. rewrite app_assoc in C1. apply NoDup_app in C1 as (_ & Q1 & Q2). apply NoDup_cons in Q2 as [Q2 Q3]. apply NoDup_cons in Q3 as [Q3 _].
    intros [Hm|Hm]%elem_of_app; [apply (Q1 m Hm); members|]. apply elem_of_cons in Hm as [->|Hm]; [apply Q2; by left|done]. }
  assert (D2 : document h2 scs (A ++ (b, xs ++ n :: ys) :: B ++ (c, us ++ k :: m :: vs) :: C)).
  { apply (document_change2 h h2 scs A _ B _ C _ _ [n; m; k] D W2); cbn [fst snd].
    - by destruct xs.
    - by destruct xs.
    - rewrite app_assoc. apply K2; [exact T1|exact Nk2|exact Nm2].
    - by destruct us.
    - by destruct us.
    - rewrite app_assoc. exact I1.
    - intros x Hx. rewrite app_assoc in Hx. intros Hy. assert (x = m \/ x ∈ c ++ us ++ k :: vs) as [->|Hz] by (revert Hy; members); [by apply Nm2|].
      apply (Dj x); [|exact Hz]. revert Hx. members.
    - members.
    - intros zs Cz Hz. apply K2; [apply K1; [done|apply Hz; members..]|apply Hz; members..]. }
  split; [done|]. rewrite (document_written _ _ _ D2). f_equal. rewrite (written_payload h1 h2) by done. by apply written_payload.
Qed.
(** InsertNext alone takes the node out of its scope as well, but what followed it
    there is cut off, and not saved. *)
Theorem C65_insert_without_take : forall h scs A b xs n m ys B c us k vs C,
  document h scs (A ++ (b, xs ++ n :: m :: ys) :: B ++ (c, us ++ k :: vs) :: C) ->
  exists h1, exec h (OInsertNext (Some k) (Some m)) = Ok (h1, [Some n; head ys]) /\
    document h1 scs (A ++ (b, xs ++ [n]) :: B ++ (c, us ++ k :: m :: vs) :: C) /\
    save_text h1 scs = Ok (written h (A ++ (b, xs ++ [n]) :: B ++ (c, us ++ k :: m :: vs) :: C)).
Proof.
  intros h scs A b xs n m ys B c us k vs C D. destruct (document_split _ _ _ _ _ _ _ D) as (C1 & C2 & Dj). cbn [fst snd] in *. pose proof D as (W & _).
  assert (Vm : valid h m) by (eapply valid_chain; [exact C1|members]). assert (Vk : valid h k) by (eapply valid_chain; [exact C2|members]).
  pose proof (C02_insert_next_other_chain h k m (c ++ us) vs (b ++ xs ++ [n]) ys W) as H. rewrite <- !app_assoc in H. cbn [app] in H. specialize (H C2 C1).
  specialize (H ltac:(intros Hk; apply (Dj k); [done|members])).
  pose proof (same_payload_insert_next h (Some k) (Some m)) as P2.
  pose proof (wf_insert_next h (Some k) (Some m) W Vk Vm) as W2. cbn [exec]. destruct (insert_next h (Some k) (Some m)) as [h2 r2]. cbn [fst snd] in *. destruct H as (I1 & I2 & _ & -> & K2).
  exists h2. split; [cbn [fst snd]; by rewrite app_assoc, last_snoc|].
  assert (Nm2 : m ∉ b ++ xs ++ [n]).
  { apply chain_NoDup in C1. intros Hm. replace (b ++ xs ++ n :: m :: ys) with ((b ++ xs ++ [n]) ++ m :: ys) in C1 by (by rewrite <- !app_assoc). apply NoDup_app in C1 as (_ & Q & _). apply (Q m Hm). by left. }
  assert (D2 : document h2 scs (A ++ (b, xs ++ [n]) :: B ++ (c, us ++ k :: m :: vs) :: C)).
  { apply (document_change2 h h2 scs A _ B _ C _ _ [m; k] D W2); cbn [fst snd].
    - by destruct xs.
    - by destruct xs.
    - exact I2.
    - by destruct us.
    - by destruct us.
    - exact I1.
    - intros x Hx Hy. assert (x = m \/ x ∈ c ++ us ++ k :: vs) as [->|Hz] by (revert Hy; members); [by apply Nm2|].
      apply (Dj x); [|exact Hz]. revert Hx. members.
    - members.
    - intros zs Cz Hz. apply K2; [done|apply Hz; members..]. }
  split; [done|]. rewrite (document_written _ _ _ D2). f_equal. by apply written_payload.
Qed.
Definition ex_text : str := $"package a" ++ [c_nl] ++ $"func F() {}" ++ [c_nl].
(** Renaming a function; the document and the edit exist. *)
Example ex_C65 : exists h scs lss A s B s' t l, parse_scope src_ord [] 0 ex_text = Ok (h, scs) /\
  document h (map Some scs) (map (pair []) lss) /\ map (pair []) lss = A ++ s :: B /\
  edit h (fun x => x ∉ nodes_of (A ++ s :: B)) (OSetText (Some l) ($"G")) s s' t /\ A <> [] /\
  exists h2 rs, exec h (OSetText (Some l) ($"G")) = Ok (h2, rs) /\
    save_text h2 (map Some scs) = Ok ($"package a" ++ [c_nl] ++ $"func G() {}" ++ [c_nl]).
Proof.
  destruct (parse_scope src_ord [] 0 ex_text) as [[h scs]| |] eqn:E; [|vm_compute in E; discriminate..].
  exists h, scs. destruct (C65_parsed src_ord [] 0 ex_text h scs (proj1 ex_order) wf_nil E) as (lss & D). exists lss.
  vm_compute in E. injection E as Eh Es.
  assert (El : lss = [[0; 1; 2; 3]; [4; 5; 6; 7; 8; 9; 10; 11; 12]]).
  { destruct D as (_ & F & _). subst h scs. clear -F. cbn [map] in F. 
    destruct lss as [|l1 [|l2 [|l3 lss]]]; cbn [map] in F; [by inversion F|inversion F as [|? ? ? ? _ F']; by inversion F'| |inversion F as [|? ? ? ? _ F']; inversion F' as [|? ? ? ? _ F'']; by inversion F''].
    inversion_clear F as [|? ? ? ? (sc1 & E1 & H1 & _ & C1) F']. inversion_clear F' as [|? ? ? ? (sc2 & E2 & H2 & _ & C2) _]. injection E1 as <-. injection E2 as <-. cbn [sc_node fst snd app] in *.
    f_equal; [|f_equal].
    - eapply (chain_unique _ _ _ 0); [exact C1|chain_ex|destruct l1; [done|]; injection H1 as <-; by left|by left].
    - eapply (chain_unique _ _ _ 4); [exact C2|chain_ex|destruct l2; [done|]; injection H2 as <-; by left|by left]. }
  rewrite El in *. exists [([], [0; 1; 2; 3])], ([], [4; 5; 6; 7; 8; 9; 10; 11; 12]), []. eexists _, _, 6.
  split; [done|]. split; [exact D|]. split; [done|]. split; [exact (ed_set_text h _ [] [4; 5] 6 [7; 8; 9; 10; 11; 12] ($"G"))|]. split; [done|].
  subst h scs. eexists _, _. split; [reflexivity|]. vm_compute. reflexivity.
Qed.
(** A session: a node is made and put after the second token of the first scope;
    then the last token of it is taken out. *)
Example ex_C65_session : match parse_scope src_ord [] 0 ex_text with
  | Ok (h, scs) => exists h', session h [([], [0; 1; 2; 3]); ([], [4; 5; 6; 7; 8; 9; 10; 11; 12])]
      [ONewNode 0 ($"b") []; OInsertNext (Some 2) (Some 13); OTakeNext (Some 13)] h' [([], [0; 1; 2; 13]); ([], [4; 5; 6; 7; 8; 9; 10; 11; 12])] /\
      save_text h' (map Some scs) = Ok ($"package abfunc F() {}" ++ [c_nl])
  | _ => False end.
Proof.
  destruct (parse_scope src_ord [] 0 ex_text) as [[h scs]| |] eqn:E; [|vm_compute in E; discriminate..]. vm_compute in E. injection E as <- <-.
  eexists. split.
  - eapply se_make; [done|constructor|reflexivity|].
    eapply (se_edit _ [] ([], [0; 1; 2; 3]) _ _ ([], [0; 1; 2; 13; 3])); [|reflexivity|].
    + eapply (ed_insert_next _ _ [] [0; 1] 2 [3] [] 13 []); [chain_ex|]. intros x Hx. apply elem_of_list_singleton in Hx as ->. apply (bool_decide_eq_true (_ ∉ _)). vm_compute. reflexivity.
    + eapply (se_edit _ [] ([], [0; 1; 2; 13; 3]) _ _ ([], [0; 1; 2; 13])); [|reflexivity|apply se_end].
      exact (ed_take_next _ _ [] [0; 1; 2] 13 3 []).
  - vm_compute. reflexivity.
Qed.
