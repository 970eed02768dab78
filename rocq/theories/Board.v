(** Proofs about [SpecBoard]: the Node API plays the game on rows of cards. *)
From Verif Require Import SpecBoard NodeProofs NodeInv NodeChain NodeIter NodeNew NodeCopy NodeHist NodeAcyc NodeOps NodeOps2 NodeFinal P_Node.

Ltac lens := cbn [concat]; repeat (rewrite app_length || cbn [length]); lia.
Ltac ins := cbn [concat]; intros *; repeat (rewrite ?elem_of_app, ?elem_of_cons, ?elem_of_nil); intuition (subst; auto).
Ltac rws := repeat (apply Forall_cons_2; [assumption|]); apply Forall_nil_2.
Lemma shows_perm h R R' T : R ≡ₚ R' -> shows h (Board R T) -> shows h (Board R' T).
Proof.
  intros P (W & C & F & K). unfold shows. cbn [rows cards] in *. split; [done|]. split; [done|]. split; [by rewrite <- P|]. rewrite <- K. symmetry in P. revert P. clear. intros P.
  induction P as [|x l l0 P IH|x y l|l l0 l1 P IH P0 IH0]; cbn [concat]; [done|by rewrite IH|by rewrite !app_assoc, (Permutation_app_comm x y)|by rewrite IH, IH0].
Qed.
Lemma shows_NoDup h R T : shows h (Board R T) -> NoDup (concat R).
Proof. intros (_ & _ & _ & K). cbn [rows] in K. rewrite K. apply NoDup_seq. Qed.
Lemma shows_chain h R T r Q : shows h (Board R T) -> R ≡ₚ r :: Q -> chain h r.
Proof. intros (_ & _ & F & _) E. cbn [rows] in F. rewrite E in F. by inversion F. Qed.
Lemma shows_chain2 h R T r s Q : shows h (Board R T) -> R ≡ₚ r :: s :: Q -> chain h r /\ chain h s /\ forall x, x ∈ r -> x ∉ s.
Proof.
  intros D E. pose proof (shows_NoDup _ _ _ (shows_perm _ _ _ _ E D)) as N. destruct D as (_ & _ & F & _). cbn [rows] in F. rewrite E in F. inversion_clear F as [|? ? F1 F2]. inversion_clear F2. split; [done|]. split; [done|].
  cbn [concat] in N. apply NoDup_app in N as (_ & N & _). intros x Hx Hy. apply (N x Hx). apply elem_of_app. by left.
Qed.
Lemma shows_length h R T : shows h (Board R T) -> length T = length h.
Proof. intros (_ & C & _). cbn [cards] in C. rewrite C, map_length. apply seq_length. Qed.
Lemma pay_same_payload h h' l : same_payload h h' -> pay h' l = pay h l.
Proof. intros [_ P]. unfold pay. by destruct (P (Some l)) as (-> & -> & ->). Qed.

Lemma shows_links h h' R T old new Q : shows h (Board R T) -> R ≡ₚ old ++ Q -> same_payload h h' -> SpecNode.wf h' ->
  Forall (chain h') new -> length (concat new) = length (concat old) -> (forall x, x ∈ concat old -> x ∈ concat new) ->
  (forall zs, chain h zs -> (forall x, x ∈ concat old -> x ∉ zs) -> chain h' zs) ->
  shows h' (Board (new ++ Q) T).
Proof.
  intros D E P W' Fn Ln In K. apply (shows_perm _ _ _ _ E) in D. pose proof (shows_NoDup _ _ _ D) as N.
  assert (Pn : concat new ≡ₚ concat old).
  { symmetry. apply NoDup_Permutation_bis; [|lia|intros x Hx%elem_of_list_In; by apply elem_of_list_In, In]. rewrite concat_app in N. apply NoDup_ListNoDup. by apply NoDup_app in N as (N & _ & _). }
  destruct D as (W & C & F & Kp). cbn [rows cards] in *. split; [done|]. cbn [rows cards]. split; [|split].
  - rewrite C, (proj1 P). apply map_ext. intros l. by rewrite (pay_same_payload h h').
  - apply Forall_app. apply Forall_app in F as [F1 F2]. split; [done|]. rewrite Forall_forall in *. intros r Hr. apply K; [by apply F2|].
    intros x Hx Hy. rewrite concat_app in N. apply NoDup_app in N as (_ & N & _). apply (N x Hx). apply elem_of_list_In, in_concat. exists r. split; by apply elem_of_list_In.
  - rewrite concat_app, Pn, (proj1 P). by rewrite <- concat_app.
Qed.
Lemma shows_same h h' R T : shows h (Board R T) -> same_payload h h' -> (forall x, same_links h h' x) -> shows h' (Board R T).
Proof.
  intros D P L. apply (shows_links h h' R T [] [] R D); [done|done|by eapply wf_same_links; [apply D|apply P|done]|constructor|done|done|].
  intros zs C _. by eapply seg_same_links; [apply P| |exact C].
Qed.

Lemma on_board h R T n : shows h (Board R T) -> valid h n -> exists xs ys Q, R ≡ₚ (xs ++ n :: ys) :: Q.
Proof.
  intros (_ & _ & _ & K) V. cbn [rows] in K.
  assert (I : n ∈ concat R). { rewrite K. apply elem_of_seq. unfold valid in V. lia. }
  apply elem_of_list_In, in_concat in I as (r & Hr & Hn). apply elem_of_list_In, elem_of_list_split in Hr as (A & B & ->).
  apply elem_of_list_In, elem_of_list_split in Hn as (xs & ys & ->). exists xs, ys, (A ++ B). by rewrite Permutation_middle.
Qed.
(** Two nodes: in different rows, or in one. *)
Lemma on_board2 h R T n m : shows h (Board R T) -> valid h n -> valid h m ->
  n = m \/ (exists xs ys us vs Q, R ≡ₚ (xs ++ n :: ys) :: (us ++ m :: vs) :: Q) \/
  (exists us ws ys Q, R ≡ₚ (us ++ m :: ws ++ n :: ys) :: Q) \/ (exists xs ws vs Q, R ≡ₚ (xs ++ n :: ws ++ m :: vs) :: Q).
Proof.
  intros D Vn Vm. destruct (on_board h R T n D Vn) as (xs & ys & Q & E).
  assert (I : m ∈ (xs ++ n :: ys) ++ concat Q).
  { pose proof (shows_perm _ _ _ _ E D) as (_ & _ & _ & K). cbn [rows concat] in K. rewrite K. apply elem_of_seq. unfold valid in Vm. lia. }
  apply elem_of_app in I as [I|I].
  - apply elem_of_app in I as [I|I]; [|apply elem_of_cons in I as [->|I]; [by left|]].
    + right. right. left. apply elem_of_list_split in I as (us & ws & ->). exists us, ws, ys, Q. rewrite E. by rewrite <- app_assoc.
    + right. right. right. apply elem_of_list_split in I as (ws & vs & ->). by exists xs, ws, vs, Q.
  - right. left. apply elem_of_list_In, in_concat in I as (r & Hr & Hn). apply elem_of_list_In, elem_of_list_split in Hr as (A & B & ->).
    apply elem_of_list_In, elem_of_list_split in Hn as (us & vs & ->). exists xs, ys, us, vs, (A ++ B). rewrite E. constructor. symmetry. apply Permutation_middle.
Qed.

(** Cutting out. *)
Lemma cut_sound h R T a R' : shows h (Board R T) -> cut_out R a R' -> shows (isolate h (Some a)) (Board R' T) /\ valid h a.
Proof.
  intros D X. destruct X as [R xs a ys Q E]. pose proof (shows_chain _ _ _ _ _ D E) as C. pose proof D as (W & _).
  assert (V : valid h a) by (eapply valid_chain; [exact C|apply elem_of_mid]).
  destruct (C06_isolate h a xs ys W C) as (C1 & C2 & C3 & K). split; [|done].
  apply (shows_links h _ R T [xs ++ a :: ys] [xs; [a]; ys] Q D E); [apply same_payload_isolate|by apply wf_isolate|rws|lens|ins|].
  intros zs Cz Hz. apply K; [done|]. apply Hz. ins.
Qed.
Lemma cuts_sound l : forall h R T R', shows h (Board R T) -> cuts R l R' -> shows (isolate_all h (map Some l)) (Board R' T).
Proof.
  induction l as [|a l IH]; intros h R T R' D X; inversion X as [|? ? R1 ? ? X1 X2]; subst; [done|].
  cbn [map]. change (isolate_all h (Some a :: map Some l)) with (isolate_all (isolate h (Some a)) (map Some l)). eapply IH; [|exact X2]. by apply (cut_sound h R T a R1).
Qed.
Lemma cut_total h R T a : shows h (Board R T) -> valid h a -> exists R', cut_out R a R'.
Proof. intros D V. destruct (on_board h R T a D V) as (xs & ys & Q & E). eexists. by constructor. Qed.
Lemma cuts_total l : forall h R T, shows h (Board R T) -> Forall (valid h) l -> exists R', cuts R l R'.
Proof.
  induction l as [|a l IH]; intros h R T D F; [exists R; constructor|]. inversion_clear F as [|? ? V F'].
  destruct (cut_total h R T a D V) as (R1 & X). destruct (cut_sound h R T a R1 D X) as [D1 _].
  destruct (IH _ R1 T D1) as (R' & X'); [|exists R'; by econstructor]. eapply Forall_impl; [exact F'|]. intros x Vx. unfold valid in *. by rewrite (proj1 (same_payload_isolate h (Some a))).
Qed.

(** Changing a card. *)
Lemma shows_card h h' R T n f : shows h (Board R T) -> length h' = length h -> (forall x, same_links h h' x) ->
  (forall x, valid h x -> pay h' x = if decide (x = n) then f (pay h x) else pay h x) -> shows h' (Board R (alter f n T)).
Proof.
  intros (W & C & F & K) L S P. cbn [rows cards] in *. split; [by eapply wf_same_links|]. cbn [rows cards]. split; [|split].
  - rewrite C, L. apply list_eq. intros i. destruct (decide (i = n)) as [->|Ne].
    + rewrite list_lookup_alter. rewrite !(list_lookup_fmap (pay _)). destruct (seq 0 (length h) !! n) as [x|] eqn:E; [|done]. cbn. apply lookup_seq in E as [-> E].
      cbn [plus]. rewrite P by (unfold valid; lia). by rewrite decide_True.
    + rewrite list_lookup_alter_ne by done. rewrite !(list_lookup_fmap (pay _)). destruct (seq 0 (length h) !! i) as [x|] eqn:E; [|done]. cbn. apply lookup_seq in E as [-> E].
      cbn [plus]. rewrite P by (unfold valid; lia). by rewrite decide_False.
  - eapply Forall_impl; [exact F|]. intros r Cr. by eapply seg_same_links; [exact L| |exact Cr].
  - by rewrite L.
Qed.
Lemma shows_card_text h R T n : shows h (Board R T) -> valid h n -> card_text T n = text_of h (Some n).
Proof.
  intros (_ & C & _) V. cbn [cards] in C. unfold card_text. rewrite C, (list_lookup_fmap (pay _)). rewrite lookup_seq_lt by done. done.
Qed.
Lemma pay_set_text h n t x : valid h n -> pay (set_text h (Some n) t) x = if decide (x = n) then with_text_card t (pay h x) else pay h x.
Proof. intros V. unfold pay. rewrite line_set_text, kind_set_text, text_set_text by done. by case_decide. Qed.
Lemma pay_set_kind h n k x : valid h n -> pay (set_kind h (Some n) k) x = if decide (x = n) then with_kind_card k (pay h x) else pay h x.
Proof. intros V. unfold pay. rewrite line_set_kind, text_set_kind, kind_set_kind by done. by case_decide. Qed.

(** New nodes. *)
Lemma shows_new h h' R T ls T' : shows h (Board R T) -> h `prefix_of` h' -> chain h' ls -> ls ≡ₚ seq (length h) (length ls) -> length h' = length h + length ls ->
  (forall i, T' !! i = pay h' <$> seq (length h) (length ls) !! i) -> shows h' (Board (ls :: R) (T ++ T')).
Proof.
  intros (W & C & F & K) [k ->] Cl Pl Ll ET. cbn [rows cards] in *. rewrite app_length in Ll.
  assert (M : forall x, length h <= x < length (h ++ k) <-> x ∈ ls). { intros x. rewrite Pl, elem_of_seq, app_length. lia. }
  split; [by eapply wf_extend|]. cbn [rows cards]. split; [|split].
  - rewrite C, app_length, Ll, seq_app, map_app. f_equal.
    + apply map_ext_in. intros x Hx. apply elem_of_list_In, elem_of_seq in Hx. unfold pay, line_of, text_of, kind_of. rewrite !field_app by (unfold valid; lia). done.
    + apply list_eq. intros i. by rewrite ET, (list_lookup_fmap (pay _)).
  - constructor; [done|]. eapply Forall_impl; [exact F|]. intros r Cr. eapply (seg_frame h (h ++ k)); [rewrite app_length; lia| |exact Cr].
    intros x Hx. apply same_links_app. by eapply valid_chain.
  - cbn [concat]. rewrite app_length, Ll, seq_app, K. etransitivity; [apply Permutation_app_comm|]. apply Permutation_app_head. exact Pl.
Qed.

(** Two heaps with the same links hold the same chains; the nil cases below are
    reduced to other calls that way. *)
Lemma shows_via h h1 h' R T : shows h1 (Board R T) -> same_payload h h1 -> same_payload h h' -> (forall x, same_links h1 h' x) -> shows h' (Board R T).
Proof.
  intros D P1 P2 L. apply (shows_same h1); [done| |done]. destruct P1 as [A1 A2], P2 as [B1 B2]. split; [by rewrite B1, A1|]. intros p.
  destruct (A2 p) as (-> & -> & ->). apply B2.
Qed.
Lemma head_app_cons {X} (ws : list X) n ys : head (ws ++ n :: ys) = head (ws ++ [n]).
Proof. by destruct ws. Qed.
Definition allocates (o : op) : bool := match o with OCopy (Some _) true => true | _ => false end.

Lemma remove_next_sound h R T n xs ys Q : shows h (Board R T) -> R ≡ₚ (xs ++ n :: ys) :: Q ->
  shows (fst (remove_next h (Some n))) (Board ((xs ++ [n]) :: ys :: Q) T) /\ snd (remove_next h (Some n)) = head ys /\ valid h n /\ SpecNode.wf h.
Proof.
  intros D E. pose proof (shows_chain _ _ _ _ _ D E) as C. pose proof D as (W & _). pose proof (valid_chain h _ n C (elem_of_mid _ _ _)) as V.
  pose proof (C05_remove_next h n xs ys W C) as H. pose proof (same_payload_remove_next h (Some n)) as P. pose proof (wf_remove_next h (Some n) W V) as W'.
  destruct (remove_next h (Some n)) as [h' r]. cbn [fst snd] in *. destruct H as (C1 & C2 & -> & K). split; [|done].
  apply (shows_links h h' R T [xs ++ n :: ys] [xs ++ [n]; ys] Q D E); [done|done|rws|lens|ins|]. intros zs Cz Hz. apply K; [done|]. apply Hz. ins.
Qed.
Lemma remove_prev_sound h R T n xs ys Q : shows h (Board R T) -> R ≡ₚ (xs ++ n :: ys) :: Q ->
  shows (fst (remove_prev h (Some n))) (Board (xs :: (n :: ys) :: Q) T) /\ snd (remove_prev h (Some n)) = last xs /\ valid h n /\ SpecNode.wf h.
Proof.
  intros D E. pose proof (shows_chain _ _ _ _ _ D E) as C. pose proof D as (W & _). pose proof (valid_chain h _ n C (elem_of_mid _ _ _)) as V.
  pose proof (C05_remove_prev h n xs ys W C) as H. pose proof (same_payload_remove_prev h (Some n)) as P. pose proof (wf_remove_prev h (Some n) W V) as W'.
  destruct (remove_prev h (Some n)) as [h' r]. cbn [fst snd] in *. destruct H as (C1 & C2 & -> & K). split; [|done].
  apply (shows_links h h' R T [xs ++ n :: ys] [xs; n :: ys] Q D E); [done|done|rws|lens|ins|]. intros zs Cz Hz. apply K; [done|]. apply Hz. ins.
Qed.
Lemma head_next h xs n ys : chain h (xs ++ n :: ys) -> next_of h (Some n) = head ys.
Proof. intros C. rewrite (seg_next h _ xs n ys _ C). by destruct ys. Qed.
Lemma last_prev h xs n ys : chain h (xs ++ n :: ys) -> prev_of h (Some n) = last xs.
Proof. intros C. rewrite (seg_prev h _ xs n ys _ C). unfold last_ptr. by destruct (last xs). Qed.
Lemma ptr_eqb_refl p : ptr_eqb p p = true.
Proof. by apply ptr_eqb_true. Qed.

(** NewNodes. *)
Definition ntok (n : node) : tok := (n_line n, n_text n, n_kind n).
Lemma pay_lookup h i n : h !! i = Some n -> pay h i = ntok n.
Proof. intros E. unfold pay, line_of, text_of, kind_of. by rewrite !(field_lookup _ _ _ _ _ E). Qed.
Lemma fresh_cards b p line ts : map ntok (fresh b p line ts) = new_cards line ts.
Proof. revert b p line. induction ts as [|t ts IH]; intros b p line; [done|]. cbn [fresh map new_cards]. by rewrite IH. Qed.
Lemma new_nodes_sound h R T line t ts : shows h (Board R T) ->
  exists h', new_nodes h line (t :: ts) = (h', Some (length h)) /\
    shows h' (Board (seq (length h) (Datatypes.S (length ts)) :: R) (T ++ (line, t, kind_new t) :: new_cards line ts)).
Proof.
  intros D. pose proof (new_nodes_spec h line t ts) as Sp. destruct (new_nodes h line (t :: ts)) as [h' r] eqn:E. destruct Sp as (ls & _ & -> & Pf & C & M & Et & _).
  exists h'. split; [done|]. unfold new_nodes, new_node, alloc in E. rewrite new_nodes_loop_spec in E by done. injection E as E.
  set (b := length h) in *. set (n := with_next _ _) in E.
  assert (E0 : h' !! b = Some n) by (rewrite <- E; unfold b; by rewrite list_lookup_middle).
  assert (E1 : forall i m, fresh (Datatypes.S b) (Some b) line ts !! i = Some m -> h' !! (Datatypes.S b + i) = Some m).
  { intros i m Hi. rewrite <- E. rewrite lookup_app_r by (fold b; lia). fold b. replace (Datatypes.S b + i - b) with (Datatypes.S i) by lia. done. }
  assert (Lh : length h' = b + Datatypes.S (length ts)) by (rewrite <- E, app_length; cbn [length]; rewrite fresh_length; fold b; lia).
  assert (C' : chain h' (seq b (Datatypes.S (length ts)))).
  { cbn [seq]. unfold chain. change (b :: seq (Datatypes.S b) (length ts)) with ([b] ++ seq (Datatypes.S b) (length ts)).
    apply seg_app. split.
    - simpl seg. split_and!; [by eapply lookup_lt_Some| | |done].
      + unfold prev_of. by rewrite (field_lookup _ _ _ _ _ E0).
      + unfold next_of. rewrite (field_lookup _ _ _ _ _ E0). unfold n. by destruct ts.
    - by apply (fresh_seg h' (Some b) ts (Datatypes.S b) line). }
  apply (shows_new h h' R T (seq b (Datatypes.S (length ts)))); [done|done|done|by rewrite seq_length|by rewrite seq_length|].
  intros i. rewrite seq_length. destruct i as [|i].
  - cbn [seq lookup list_lookup fmap option_fmap option_map]. f_equal. symmetry. exact (pay_lookup _ _ _ E0).
  - cbn [seq lookup list_lookup]. rewrite <- (fresh_cards (Datatypes.S b) (Some b)).
    change (((line, t, kind_new t) :: map ntok (fresh (Datatypes.S b) (Some b) line ts)) !! Datatypes.S i) with (map ntok (fresh (Datatypes.S b) (Some b) line ts) !! i).
    rewrite (list_lookup_fmap ntok). destruct (fresh (Datatypes.S b) (Some b) line ts !! i) as [m|] eqn:Em.
    + cbn. rewrite lookup_seq_lt; [|apply lookup_lt_Some in Em; by rewrite fresh_length in Em]. cbn. f_equal. symmetry. apply pay_lookup. by apply E1.
    + cbn. rewrite lookup_seq_ge; [done|]. apply lookup_ge_None in Em. by rewrite fresh_length in Em.
Qed.
(** Combine. *)
Lemma combine_cards h R T n k l R' t : shows h (Board R T) -> valid h n -> cuts R l R' ->
  shows (set_text (isolate_all (set_kind h (Some n) k) (map Some l)) (Some n) t) (Board R' (alter (fun c => with_kind_card k (with_text_card t c)) n T)).
Proof.
  intros D V X.
  assert (D1 : shows (set_kind h (Some n) k) (Board R (alter (with_kind_card k) n T))).
  { apply (shows_card h); [done|apply length_set_kind|intros; apply links_set_kind|]. intros x _. by apply pay_set_kind. }
  pose proof (cuts_sound l _ _ _ _ D1 X) as D2. set (h2 := isolate_all _ _) in *.
  assert (V2 : valid h2 n). { unfold valid, h2. rewrite (proj1 (same_payload_isolate_all _ _)), length_set_kind. done. }
  replace (alter (fun c => with_kind_card k (with_text_card t c)) n T) with (alter (with_text_card t) n (alter (with_kind_card k) n T)).
  - apply (shows_card h2); [done|apply length_set_text|intros; apply links_set_text|]. intros x _. by apply pay_set_text.
  - rewrite <- list_alter_compose. apply list_alter_ext; [|done]. intros [[? ?] ?] _. done.
Qed.
Lemma texture_cards h R T n l R' t : shows h (Board R T) -> valid h n -> cuts R l R' ->
  shows (set_text (isolate_all h (map Some l)) (Some n) t) (Board R' (alter (with_text_card t) n T)).
Proof.
  intros D V X. pose proof (cuts_sound l _ _ _ _ D X) as D2. set (h2 := isolate_all _ _) in *.
  assert (V2 : valid h2 n). { unfold valid, h2. rewrite (proj1 (same_payload_isolate_all _ _)). done. }
  apply (shows_card h2); [done|apply length_set_text|intros; apply links_set_text|]. intros x _. by apply pay_set_text.
Qed.
Lemma combine_empty h n k : valid h n -> forall R T R', shows h (Board R T) -> cuts R [] R' -> forall t, t = text_of h (Some n) ->
  shows (set_kind h (Some n) k) (Board R' (alter (fun c => with_kind_card k (with_text_card t c)) n T)).
Proof.
  intros V R T R' D X t ->. inversion X; subst. apply (shows_card h); [done|apply length_set_kind|intros; apply links_set_kind|]. intros x _.
  rewrite pay_set_kind by done. case_decide; [subst; done|done].
Qed.
Lemma absorbed_valid h n nns l : Forall (live h) nns -> absorbed (Some n) nns = map Some l -> Forall (valid h) l.
Proof.
  intros F E. apply Forall_forall. intros a Ha. assert (I : Some a ∈ absorbed (Some n) nns) by (rewrite E; apply elem_of_list_fmap; by exists a).
  apply elem_of_list_filter in I as [_ I]. rewrite Forall_forall in F. exact (F _ I).
Qed.
Lemma card_texts h R T l : shows h (Board R T) -> Forall (valid h) l -> map (text_of h) (map Some l) = map (card_text T) l.
Proof.
  intros D F. rewrite map_map. apply map_ext_in. intros a Ha. symmetry. apply (shows_card_text h R); [done|]. rewrite Forall_forall in F. by apply F, elem_of_list_In.
Qed.
Lemma combine_sound rv h R T n k nns l R' : shows h (Board R T) -> Forall (live h) (Some n :: nns) -> absorbed (Some n) nns = map Some l -> cuts R l R' ->
  exists h', combine rv h (Some n) k nns = Ok (h', Some n) /\
    shows h' (Board R' (alter (fun c => with_kind_card k (with_text_card (combined rv (card_text T n) (map (card_text T) l)) c)) n T)).
Proof.
  intros D L Ab X. inversion_clear L as [|? ? L1 L2]. cbn [live] in L1. rewrite combine_spec, Ab, (card_texts h R T l D (absorbed_valid _ _ _ _ L2 Ab)), <- (shows_card_text h R T n D L1).
  eexists. split; [done|]. destruct nns as [|a nns].
  - destruct l; [|done]. apply (combine_empty h n k L1 R); [done|done|]. cbn [map]. unfold combined. rewrite (shows_card_text h R T n D L1). destruct rv; cbn; by rewrite ?app_nil_r.
  - by apply combine_cards with (R := R).
Qed.
Lemma nil_combine_sound rv h R T a k nns l R' : shows h (Board R T) -> Forall (live h) (Some a :: nns) -> absorbed (Some a) nns = map Some l -> cuts R l R' ->
  exists h', combine rv h None k (Some a :: nns) = Ok (h', Some a) /\
    shows h' (Board R' (alter (with_text_card (combined rv (card_text T a) (map (card_text T) l))) a T)).
Proof.
  intros D L Ab X. inversion_clear L as [|? ? L1 L2]. cbn [live] in L1. unfold combine. change (set_kind h None k) with h. rewrite combine_loop_spec, Ab, (card_texts h R T l D (absorbed_valid _ _ _ _ L2 Ab)), <- (shows_card_text h R T a D L1).
  eexists. split; [reflexivity|]. 
  match goal with |- context [alter (with_text ?t) a ?H] => change (alter (with_text t) a H) with (set_text H (Some a) t); replace t with (combined rv (card_text T a) (map (card_text T) l)) end.
  - by apply texture_cards with (R := R).
  - unfold GoStr.join, combined. destruct rv; [|done]. cbn [app]. rewrite reverse_cons, concat_app. simpl. rewrite app_nil_r. unfold reverse. by rewrite rev_append_rev, app_nil_r.
Qed.
(** One call. *)
Lemma step_sound h b o b' rs : shows h b -> legal h o -> allocates o = false -> step b o b' rs ->
  exists h', exec h o = Ok (h', rs) /\ shows h' b'.
Proof.
  intros D L A X. pose proof D as (W & _). unfold legal in L.
  destruct X as [R T line t ks|R T line|R T line t ts|R T rel|R T n c Hc|R T n xs ys Q xs' c ys' T' E|R T n t|R T n k|R T t|R T k
    |R T n nn xs ys us vs Q E|R T n nn us ws ys Q E|R T n nn xs ws vs Q Nw E|R T n nn xs vs Q E|R T p|R T n xs ys Q E|R T nn us vs Q E
    |R T n nn xs ys us vs Q E|R T n nn us ws ys Q Nw E|R T n nn xs ws vs Q E|R T n nn us ys Q E|R T p|R T n xs ys Q E|R T nn us vs Q E
    |R T n nn xs ys us vs Q E|R T n nn xs ws vs Q Nw E|R T n nn xs vs Q E|R T p|R T n xs ys Q E|R T nn us vs Q E
    |R T n nn xs ys us vs Q E|R T n nn us ws ys Q Nw E|R T n nn us ys Q E|R T p|R T n xs ys Q E|R T nn us vs Q E
    |R T n m xs ys Q E|R T n xs Q E|R T|R T n m xs ys Q E|R T n ys Q E|R T|R T n xs ys Q E|R T|R T n xs ys Q E|R T|R T n R' E|R T
    |R T n k nns l R' Ab Cu|R T n k nns l R' Ab Cu|R T k a nns l R' Ab Cu|R T k a nns l R' Ab Cu|R T k|R T k]; cbn [args] in L.
  - (* NewNode *) pose proof (new_node_spec h line t ks) as H. cbn [exec]. destruct (new_node h line t ks) as [h' c]. destruct H as (-> & Pf & C & M & H1 & H2 & H3).
    pose proof (shows_length _ _ _ D) as Lt. rewrite Lt. exists h'. split; [done|].
    assert (Ll : length h' = length h + 1). { destruct (M (length h)) as [_ M1]. specialize (M1 ltac:(by left)). destruct (decide (length h' = length h + 1)) as [|Ne]; [done|]. exfalso. destruct (M (length h + 1)) as [M2 _]. specialize (M2 ltac:(lia)). apply elem_of_list_singleton in M2. lia. }
    apply (shows_new h h' R T [length h]); [done|done|done|done|done|]. intros [|i]; [|done]. cbn. f_equal. unfold pay. rewrite H1, H2, H3. done.
  - exists h. split; [done|done].
  - (* NewNodes *) rewrite (shows_length _ _ _ D). destruct (new_nodes_sound h R T line t ts D) as (h' & E & D'). exists h'. split; [cbn [exec]; by rewrite E|done].
  - exists h. done.
  - (* Copy *) inversion_clear L as [|? ? L1 _]. rewrite (shows_length _ _ _ D). destruct (cp_chain h n) as [C M]. exists (h ++ [cp h n None None]). split; [done|].
    apply (shows_new h _ R T [length h]); [done|by eexists|done|done|by rewrite app_length|]. intros [|i]; [|done]. cbn. f_equal. symmetry. rewrite (pay_lookup _ _ (cp h n None None)) by (by rewrite list_lookup_middle).
    destruct D as (_ & Ct & _). cbn [cards] in Ct. rewrite Ct, (list_lookup_fmap (pay h)), lookup_seq_lt in Hc by done. cbn in Hc. by injection Hc as <-.
  - done.
  - inversion_clear L as [|? ? L1 _]. exists (set_text h (Some n) t). split; [done|]. apply (shows_card h); [done|apply length_set_text|intros; apply links_set_text|]. intros x _. by apply pay_set_text.
  - inversion_clear L as [|? ? L1 _]. exists (set_kind h (Some n) k). split; [done|]. apply (shows_card h); [done|apply length_set_kind|intros; apply links_set_kind|]. intros x _. by apply pay_set_kind.
  - by exists h.
  - by exists h.
  - (* InsertNext *) destruct (shows_chain2 _ _ _ _ _ _ D E) as (C & Cn & Nd). inversion_clear L as [|? ? L1 L']. inversion_clear L' as [|? ? L2 _].
    pose proof (C02_insert_next_other_chain h n nn xs ys us vs W C Cn (Nd n (elem_of_mid _ _ _))) as H. pose proof (same_payload_insert_next h (Some n) (Some nn)) as P.
    pose proof (wf_insert_next h (Some n) (Some nn) W L1 L2) as W'. cbn [exec]. destruct (insert_next h (Some n) (Some nn)) as [h' r]. cbn [fst snd] in *. destruct H as (H1 & H2 & H3 & -> & K).
    exists h'. split; [done|]. apply (shows_links h h' R T [xs ++ n :: ys; us ++ nn :: vs] [xs ++ n :: nn :: ys; us; vs] Q D E); [done|done|rws|lens|ins|]. intros zs Cz Hz. apply K; [done|apply Hz; ins..].
  - pose proof (shows_chain _ _ _ _ _ D E) as C. inversion_clear L as [|? ? L1 L']. inversion_clear L' as [|? ? L2 _].
    pose proof (C02_insert_next_from_before h n nn us ws ys W C) as H. pose proof (same_payload_insert_next h (Some n) (Some nn)) as P.
    pose proof (wf_insert_next h (Some n) (Some nn) W L1 L2) as W'. cbn [exec]. destruct (insert_next h (Some n) (Some nn)) as [h' r]. cbn [fst snd] in *. destruct H as (H1 & H2 & -> & K).
    exists h'. split; [cbn [fst snd]; by rewrite head_app_cons|]. apply (shows_links h h' R T [us ++ nn :: ws ++ n :: ys] [us; ws ++ n :: nn :: ys] Q D E); [done|done|rws|lens|ins|]. intros zs Cz Hz. apply K; [done|apply Hz; ins..].
  - pose proof (shows_chain _ _ _ _ _ D E) as C. inversion_clear L as [|? ? L1 L']. inversion_clear L' as [|? ? L2 _].
    pose proof (C02_insert_next_from_after h n nn xs ws vs W Nw C) as H. pose proof (same_payload_insert_next h (Some n) (Some nn)) as P.
    pose proof (wf_insert_next h (Some n) (Some nn) W L1 L2) as W'. cbn [exec]. destruct (insert_next h (Some n) (Some nn)) as [h' r]. cbn [fst snd] in *. destruct H as (H1 & H2 & -> & K).
    exists h'. split; [done|]. apply (shows_links h h' R T [xs ++ n :: ws ++ nn :: vs] [xs ++ n :: nn :: ws; vs] Q D E); [done|done|rws|lens|ins|]. intros zs Cz Hz. apply K; [done|apply Hz; ins..].
  - pose proof (shows_chain _ _ _ _ _ D E) as C. exists h. split; [|done]. cbn [exec]. rewrite (proj1 (C02_insert_noop h (Some n) (Some nn))); [done|]. right. by apply (head_next h xs n (nn :: vs)).
  - exists h. split; [|done]. cbn [exec]. rewrite (proj1 (C02_insert_noop h p p)); [done|]. by left.
  - (* InsertNext nil *) destruct (remove_next_sound _ _ _ _ _ _ _ D E) as (D' & _ & V & _). exists (fst (insert_next h (Some n) None)). split.
    + cbn [exec]. repeat f_equal; unfold insert_next; by case_match.
    + eapply (shows_via h); [exact D'|apply same_payload_remove_next|apply same_payload_insert_next|]. intros x. destruct (C13_nil_argument h n x W V) as (Z1 & Z2 & _). by split.
  - (* nil InsertNext *) destruct (cut_sound h R T nn _ D (cut_at _ _ _ _ _ E)) as [D' V]. exists (fst (insert_next h None (Some nn))).
    pose proof (shows_chain _ _ _ _ _ D E) as C. split.
    + cbn [exec]. unfold insert_next. cbn [ptr_eqb next_of orb]. change (next_of h None) with (@None nat). rewrite (last_prev h us nn vs C), (head_next h us nn vs C). done.
    + eapply (shows_via h); [exact D'|apply same_payload_isolate|apply same_payload_insert_next|]. intros x. apply (C13_nil_receiver h nn x W V).
  - (* InsertPrev *) destruct (shows_chain2 _ _ _ _ _ _ D E) as (C & Cn & Nd). inversion_clear L as [|? ? L1 L']. inversion_clear L' as [|? ? L2 _].
    pose proof (C02_insert_prev_other_chain h n nn xs ys us vs W C Cn (Nd n (elem_of_mid _ _ _))) as H. pose proof (same_payload_insert_prev h (Some n) (Some nn)) as P.
    pose proof (wf_insert_prev h (Some n) (Some nn) W L1 L2) as W'. cbn [exec]. destruct (insert_prev h (Some n) (Some nn)) as [h' r]. cbn [fst snd] in *. destruct H as (H1 & H2 & H3 & -> & K).
    exists h'. split; [done|]. apply (shows_links h h' R T [xs ++ n :: ys; us ++ nn :: vs] [xs ++ nn :: n :: ys; us; vs] Q D E); [done|done|rws|lens|ins|]. intros zs Cz Hz. apply K; [done|apply Hz; ins..].
  - pose proof (shows_chain _ _ _ _ _ D E) as C. inversion_clear L as [|? ? L1 L']. inversion_clear L' as [|? ? L2 _].
    pose proof (C02_insert_prev_from_before h n nn us ws ys W Nw C) as H. pose proof (same_payload_insert_prev h (Some n) (Some nn)) as P.
    pose proof (wf_insert_prev h (Some n) (Some nn) W L1 L2) as W'. cbn [exec]. destruct (insert_prev h (Some n) (Some nn)) as [h' r]. cbn [fst snd] in *. destruct H as (H1 & H2 & -> & K).
    exists h'. split; [done|]. apply (shows_links h h' R T [us ++ nn :: ws ++ n :: ys] [us; ws ++ nn :: n :: ys] Q D E); [done|done|rws|lens|ins|]. intros zs Cz Hz. apply K; [done|apply Hz; ins..].
  - pose proof (shows_chain _ _ _ _ _ D E) as C. inversion_clear L as [|? ? L1 L']. inversion_clear L' as [|? ? L2 _].
    pose proof (C02_insert_prev_from_after h n nn xs ws vs W C) as H. pose proof (same_payload_insert_prev h (Some n) (Some nn)) as P.
    pose proof (wf_insert_prev h (Some n) (Some nn) W L1 L2) as W'. cbn [exec]. destruct (insert_prev h (Some n) (Some nn)) as [h' r]. cbn [fst snd] in *. destruct H as (H1 & H2 & -> & K).
    exists h'. split; [done|]. apply (shows_links h h' R T [xs ++ n :: ws ++ nn :: vs] [xs ++ nn :: n :: ws; vs] Q D E); [done|done|rws|lens|ins|]. intros zs Cz Hz. apply K; [done|apply Hz; ins..].
  - assert (C : chain h ((us ++ [nn]) ++ n :: ys)) by (rewrite <- app_assoc; exact (shows_chain _ _ _ _ _ D E)). exists h. split; [|done]. cbn [exec]. rewrite (proj2 (C02_insert_noop h (Some n) (Some nn))); [done|]. right. rewrite (last_prev h _ n ys C). apply last_snoc.
  - exists h. split; [|done]. cbn [exec]. rewrite (proj2 (C02_insert_noop h p p)); [done|]. by left.
  - destruct (remove_prev_sound _ _ _ _ _ _ _ D E) as (D' & _ & V & _). exists (fst (insert_prev h (Some n) None)). split.
    + cbn [exec]. repeat f_equal; unfold insert_prev; by case_match.
    + eapply (shows_via h); [exact D'|apply same_payload_remove_prev|apply same_payload_insert_prev|]. intros x. destruct (C13_nil_argument h n x W V) as (_ & _ & _ & _ & Z1 & Z2 & _). by split.
  - destruct (cut_sound h R T nn _ D (cut_at _ _ _ _ _ E)) as [D' V]. exists (fst (insert_prev h None (Some nn))).
    pose proof (shows_chain _ _ _ _ _ D E) as C. split.
    + cbn [exec]. unfold insert_prev. cbn [ptr_eqb prev_of orb]. change (prev_of h None) with (@None nat). rewrite (last_prev h us nn vs C), (head_next h us nn vs C). done.
    + eapply (shows_via h); [exact D'|apply same_payload_isolate|apply same_payload_insert_prev|]. intros x. apply (C13_nil_receiver h nn x W V).
  - (* ReplaceNext *) destruct (shows_chain2 _ _ _ _ _ _ D E) as (C & Cn & Nd). inversion_clear L as [|? ? L1 L']. inversion_clear L' as [|? ? L2 _].
    pose proof (C03_replace_next h n nn xs ys us vs W C Cn (Nd n (elem_of_mid _ _ _))) as H. pose proof (same_payload_replace_next h (Some n) (Some nn)) as P.
    pose proof (wf_replace_next h (Some n) (Some nn) W L1 L2) as W'. cbn [exec]. destruct (replace_next h (Some n) (Some nn)) as [h' r]. cbn [fst snd] in *. destruct H as (H1 & H2 & H3 & -> & K).
    exists h'. split; [done|]. apply (shows_links h h' R T [xs ++ n :: ys; us ++ nn :: vs] [xs ++ n :: nn :: vs; us; ys] Q D E); [done|done|rws|lens|ins|]. intros zs Cz Hz. apply K; [done|apply Hz; ins..].
  - pose proof (shows_chain _ _ _ _ _ D E) as C. inversion_clear L as [|? ? L1 L']. inversion_clear L' as [|? ? L2 _].
    pose proof (C03_replace_next_same_chain h n nn xs ws vs W Nw C) as H. pose proof (same_payload_replace_next h (Some n) (Some nn)) as P.
    pose proof (wf_replace_next h (Some n) (Some nn) W L1 L2) as W'. cbn [exec]. destruct (replace_next h (Some n) (Some nn)) as [h' r]. cbn [fst snd] in *. destruct H as (H1 & H2 & -> & K).
    exists h'. split; [done|]. apply (shows_links h h' R T [xs ++ n :: ws ++ nn :: vs] [xs ++ n :: nn :: vs; ws] Q D E); [done|done|rws|lens|ins|]. intros zs Cz Hz. apply K; [done|apply Hz; ins..].
  - pose proof (shows_chain _ _ _ _ _ D E) as C. exists h. split; [|done]. cbn [exec]. rewrite (proj1 (C03_replace_noop h (Some n) (Some nn))); [done|]. right. by apply (head_next h xs n (nn :: vs)).
  - exists h. split; [|done]. cbn [exec]. rewrite (proj1 (C03_replace_noop h p p)); [done|]. by left.
  - destruct (remove_next_sound _ _ _ _ _ _ _ D E) as (D' & _ & V & _). exists (fst (replace_next h (Some n) None)). pose proof (shows_chain _ _ _ _ _ D E) as C. split.
    + cbn [exec]. unfold replace_next. cbn [ptr_eqb orb]. rewrite (head_next h xs n ys C). destruct ys; done.
    + eapply (shows_via h); [exact D'|apply same_payload_remove_next|apply same_payload_replace_next|]. intros x. destruct (C13_nil_argument h n x W V) as (_ & _ & Z1 & Z2 & _). by split.
  - destruct (remove_prev_sound _ _ _ _ _ _ _ D E) as (D' & _ & V & _). exists (fst (replace_next h None (Some nn))). pose proof (shows_chain _ _ _ _ _ D E) as C. split.
    + cbn [exec]. unfold replace_next. cbn [ptr_eqb orb]. change (next_of h None) with (@None nat). rewrite (last_prev h us nn vs C). done.
    + eapply (shows_via h); [exact D'|apply same_payload_remove_prev|apply same_payload_replace_next|]. intros x. destruct (replace_next_nil_recv_links h nn W V) as [Z1 Z2], (remove_prev_links h nn W V) as [Y1 Y2]. unfold same_links. rewrite Z1, Z2, Y1, Y2. done.
  - (* ReplacePrev *) destruct (shows_chain2 _ _ _ _ _ _ D E) as (C & Cn & Nd). inversion_clear L as [|? ? L1 L']. inversion_clear L' as [|? ? L2 _].
    pose proof (C03_replace_prev h n nn xs ys us vs W C Cn (Nd n (elem_of_mid _ _ _))) as H. pose proof (same_payload_replace_prev h (Some n) (Some nn)) as P.
    pose proof (wf_replace_prev h (Some n) (Some nn) W L1 L2) as W'. cbn [exec]. destruct (replace_prev h (Some n) (Some nn)) as [h' r]. cbn [fst snd] in *. destruct H as (H1 & H2 & H3 & -> & K).
    exists h'. split; [done|]. apply (shows_links h h' R T [xs ++ n :: ys; us ++ nn :: vs] [us ++ nn :: n :: ys; xs; vs] Q D E); [done|done|rws|lens|ins|]. intros zs Cz Hz. apply K; [done|apply Hz; ins..].
  - pose proof (shows_chain _ _ _ _ _ D E) as C. inversion_clear L as [|? ? L1 L']. inversion_clear L' as [|? ? L2 _].
    pose proof (C03_replace_prev_same_chain h n nn us ws ys W Nw C) as H. pose proof (same_payload_replace_prev h (Some n) (Some nn)) as P.
    pose proof (wf_replace_prev h (Some n) (Some nn) W L1 L2) as W'. cbn [exec]. destruct (replace_prev h (Some n) (Some nn)) as [h' r]. cbn [fst snd] in *. destruct H as (H1 & H2 & -> & K).
    exists h'. split; [done|]. apply (shows_links h h' R T [us ++ nn :: ws ++ n :: ys] [us ++ nn :: n :: ys; ws] Q D E); [done|done|rws|lens|ins|]. intros zs Cz Hz. apply K; [done|apply Hz; ins..].
  - assert (C : chain h ((us ++ [nn]) ++ n :: ys)) by (rewrite <- app_assoc; exact (shows_chain _ _ _ _ _ D E)). exists h. split; [|done]. cbn [exec]. rewrite (proj2 (C03_replace_noop h (Some n) (Some nn))); [done|]. right. rewrite (last_prev h _ n ys C). apply last_snoc.
  - exists h. split; [|done]. cbn [exec]. rewrite (proj2 (C03_replace_noop h p p)); [done|]. by left.
  - destruct (remove_prev_sound _ _ _ _ _ _ _ D E) as (D' & _ & V & _). exists (fst (replace_prev h (Some n) None)). pose proof (shows_chain _ _ _ _ _ D E) as C. split.
    + cbn [exec]. unfold replace_prev. cbn [ptr_eqb orb]. rewrite (last_prev h xs n ys C). destruct (last xs); done.
    + eapply (shows_via h); [exact D'|apply same_payload_remove_prev|apply same_payload_replace_prev|]. intros x. destruct (C13_nil_argument h n x W V) as (_ & _ & _ & _ & _ & _ & Z1 & Z2). by split.
  - destruct (remove_next_sound _ _ _ _ _ _ _ D E) as (D' & _ & V & _). exists (fst (replace_prev h None (Some nn))). pose proof (shows_chain _ _ _ _ _ D E) as C. split.
    + cbn [exec]. unfold replace_prev. cbn [ptr_eqb orb]. change (prev_of h None) with (@None nat). rewrite (head_next h us nn vs C). done.
    + eapply (shows_via h); [exact D'|apply same_payload_remove_next|apply same_payload_replace_prev|]. intros x. destruct (replace_prev_nil_recv_links h nn W V) as [Z1 Z2], (remove_next_links h nn W V) as [Y1 Y2]. unfold same_links. rewrite Z1, Z2, Y1, Y2. done.
  - (* TakeNext *) pose proof (shows_chain _ _ _ _ _ D E) as C. inversion_clear L as [|? ? L1 _].
    pose proof (C04_take_next h n m xs ys W C) as H. pose proof (same_payload_take_next h (Some n)) as P. pose proof (wf_take_next h (Some n) W L1) as W'.
    cbn [exec]. destruct (take_next h (Some n)) as [h' r]. cbn [fst snd] in *. destruct H as (H1 & H2 & -> & K).
    exists h'. split; [done|]. apply (shows_links h h' R T [xs ++ n :: m :: ys] [xs ++ n :: ys; [m]] Q D E); [done|done|rws|lens|ins|]. intros zs Cz Hz. apply K; [done|apply Hz; ins..].
  - pose proof (shows_chain _ _ _ _ _ D E) as C. inversion_clear L as [|? ? L1 _]. destruct (proj1 (C04_take_nothing h n W L1) (head_next h xs n [] C)) as [Z1 Z2].
    exists (fst (take_next h (Some n))). split; [cbn [exec]; by rewrite Z1|]. by apply (shows_same h); [|apply same_payload_take_next|].
  - exists h. done.
  - pose proof (shows_chain _ _ _ _ _ D E) as C. inversion_clear L as [|? ? L1 _].
    pose proof (C04_take_prev h n m xs ys W C) as H. pose proof (same_payload_take_prev h (Some n)) as P. pose proof (wf_take_prev h (Some n) W L1) as W'.
    cbn [exec]. destruct (take_prev h (Some n)) as [h' r]. cbn [fst snd] in *. destruct H as (H1 & H2 & -> & K).
    exists h'. split; [done|]. apply (shows_links h h' R T [xs ++ m :: n :: ys] [xs ++ n :: ys; [m]] Q D E); [done|done|rws|lens|ins|]. intros zs Cz Hz. apply K; [done|apply Hz; ins..].
  - pose proof (shows_chain _ _ _ _ _ D E) as C. inversion_clear L as [|? ? L1 _]. destruct (proj2 (C04_take_nothing h n W L1) (last_prev h [] n ys C)) as [Z1 Z2].
    exists (fst (take_prev h (Some n))). split; [cbn [exec]; by rewrite Z1|]. by apply (shows_same h); [|apply same_payload_take_prev|].
  - exists h. done.
  - destruct (remove_next_sound _ _ _ _ _ _ _ D E) as (D' & Er & _). exists (fst (remove_next h (Some n))). split; [cbn [exec]; by rewrite Er|done].
  - exists h. done.
  - destruct (remove_prev_sound _ _ _ _ _ _ _ D E) as (D' & Er & _). exists (fst (remove_prev h (Some n))). split; [cbn [exec]; by rewrite Er|done].
  - exists h. done.
  - exists (isolate h (Some n)). split; [done|]. by apply (cut_sound h R).
  - exists h. done.
  - destruct (combine_sound false h R T n k nns l R' D L Ab Cu) as (h' & E & D'). exists h'. split; [cbn [exec]; unfold combine_next; by rewrite E|exact D'].
  - destruct (combine_sound true h R T n k nns l R' D L Ab Cu) as (h' & E & D'). exists h'. split; [cbn [exec]; unfold combine_prev; by rewrite E|exact D'].
  - inversion_clear L as [|? ? _ L']. destruct (nil_combine_sound false h R T a k nns l R' D L' Ab Cu) as (h' & E & D'). exists h'. split; [cbn [exec]; unfold combine_next; by rewrite E|exact D'].
  - inversion_clear L as [|? ? _ L']. destruct (nil_combine_sound true h R T a k nns l R' D L' Ab Cu) as (h' & E & D'). exists h'. split; [cbn [exec]; unfold combine_prev; by rewrite E|exact D'].
  - exists h. done.
  - exists h. done.
Qed.

(** Every call that does not panic or close a circle is a step. *)
Lemma absorbed_some n nns : exists l, absorbed n nns = map Some l.
Proof.
  unfold absorbed. induction nns as [|[a|] nns (l & IH)]; [by exists []| |].
  - rewrite filter_cons. case_decide; [exists (a :: l); cbn [map]; by rewrite IH|by exists l].
  - rewrite filter_cons. rewrite decide_False; [by exists l|]. by intros [? _].
Qed.
Lemma pair_dec (ws : list loc) : ws = [] \/ ws <> [].
Proof. destruct ws; [by left|by right]. Qed.
Lemma step_total h b o : shows h b -> legal h o -> allocates o = false -> ~ closes h o -> exec h o <> Panic ->
  exists b' rs, step b o b' rs.
Proof.
  intros D L A Cl NP. destruct b as [R T]. unfold legal in L.
  assert (In1 : forall n, Forall (live h) [Some n] -> exists xs ys Q, R ≡ₚ (xs ++ n :: ys) :: Q) by (intros n F; inversion_clear F; by apply (on_board h R T)).
  destruct o as [line t ks|line [|t ts]|[n|] [|]|n nn|n nn|n nn|n nn|[n|]|[n|]|[n|]|[n|]|[n|]|[n|] k nns|[n|] k nns|[n|] k|[n|] t]; cbn [args] in L; try done.
  - eexists _, _. apply st_new_node.
  - eexists _, _. apply st_new_nodes_none.
  - eexists _, _. apply st_new_nodes.
  - inversion_clear L as [|? ? L1 _]. destruct (lookup_lt_is_Some_2 T n) as [c Hc]; [by rewrite (shows_length _ _ _ D)|]. eexists _, _. by apply st_copy_one with (c := c).
  - eexists _, _. apply st_copy_nil.
  - eexists _, _. apply st_copy_nil.
  - (* InsertPrev *) destruct n as [n|], nn as [nn|].
    + inversion_clear L as [|? ? L1 L']. inversion_clear L' as [|? ? L2 _]. destruct (on_board2 h R T n nn D L1 L2) as [->|[(xs & ys & us & vs & Q & E)|[(us & ws & ys & Q & E)|(xs & ws & vs & Q & E)]]].
      * eexists _, _. apply st_insert_prev_self.
      * eexists _, _. by eapply st_insert_prev.
      * destruct (pair_dec ws) as [->|Nw]; eexists _, _; [by eapply st_insert_prev_there|by eapply st_insert_prev_before].
      * eexists _, _. by eapply st_insert_prev_after.
    + destruct (In1 n) as (xs & ys & Q & E); [by inversion_clear L; constructor|]. eexists _, _. by eapply st_insert_prev_nil.
    + destruct (In1 nn) as (xs & ys & Q & E); [by inversion_clear L|]. eexists _, _. by eapply st_nil_insert_prev.
    + eexists _, _. apply st_insert_prev_self.
  - (* InsertNext *) destruct n as [n|], nn as [nn|].
    + inversion_clear L as [|? ? L1 L']. inversion_clear L' as [|? ? L2 _]. destruct (on_board2 h R T n nn D L1 L2) as [->|[(xs & ys & us & vs & Q & E)|[(us & ws & ys & Q & E)|(xs & ws & vs & Q & E)]]].
      * eexists _, _. apply st_insert_next_self.
      * eexists _, _. by eapply st_insert_next.
      * eexists _, _. by eapply st_insert_next_before.
      * destruct (pair_dec ws) as [->|Nw]; eexists _, _; [by eapply st_insert_next_there|by eapply st_insert_next_after].
    + destruct (In1 n) as (xs & ys & Q & E); [by inversion_clear L; constructor|]. eexists _, _. by eapply st_insert_next_nil.
    + destruct (In1 nn) as (xs & ys & Q & E); [by inversion_clear L|]. eexists _, _. by eapply st_nil_insert_next.
    + eexists _, _. apply st_insert_next_self.
  - (* ReplacePrev *) destruct n as [n|], nn as [nn|].
    + inversion_clear L as [|? ? L1 L']. inversion_clear L' as [|? ? L2 _]. destruct (on_board2 h R T n nn D L1 L2) as [->|[(xs & ys & us & vs & Q & E)|[(us & ws & ys & Q & E)|(xs & ws & vs & Q & E)]]].
      * eexists _, _. apply st_replace_prev_self.
      * eexists _, _. by eapply st_replace_prev.
      * destruct (pair_dec ws) as [->|Nw]; eexists _, _; [by eapply st_replace_prev_there|by eapply st_replace_prev_before].
      * exfalso. apply Cl. cbn [closes]. exact (chain_tc h xs n ws nn vs (shows_chain _ _ _ _ _ D E)).
    + destruct (In1 n) as (xs & ys & Q & E); [by inversion_clear L; constructor|]. eexists _, _. by eapply st_replace_prev_nil.
    + destruct (In1 nn) as (xs & ys & Q & E); [by inversion_clear L|]. eexists _, _. by eapply st_nil_replace_prev.
    + eexists _, _. apply st_replace_prev_self.
  - (* ReplaceNext *) destruct n as [n|], nn as [nn|].
    + inversion_clear L as [|? ? L1 L']. inversion_clear L' as [|? ? L2 _]. destruct (on_board2 h R T n nn D L1 L2) as [->|[(xs & ys & us & vs & Q & E)|[(us & ws & ys & Q & E)|(xs & ws & vs & Q & E)]]].
      * eexists _, _. apply st_replace_next_self.
      * eexists _, _. by eapply st_replace_next.
      * exfalso. apply Cl. cbn [closes]. exact (chain_tc h us nn ws n ys (shows_chain _ _ _ _ _ D E)).
      * destruct (pair_dec ws) as [->|Nw]; eexists _, _; [by eapply st_replace_next_there|by eapply st_replace_next_after].
    + destruct (In1 n) as (xs & ys & Q & E); [by inversion_clear L; constructor|]. eexists _, _. by eapply st_replace_next_nil.
    + destruct (In1 nn) as (xs & ys & Q & E); [by inversion_clear L|]. eexists _, _. by eapply st_nil_replace_next.
    + eexists _, _. apply st_replace_next_self.
  - destruct (In1 n L) as (xs & ys & Q & E). destruct xs as [|m xs _] using rev_ind; [eexists _, _; by eapply st_take_prev_end|]. rewrite <- app_assoc in E. cbn [app] in E. eexists _, _. eapply st_take_prev, E.
  - eexists _, _. apply st_take_prev_nil.
  - destruct (In1 n L) as (xs & [|m ys] & Q & E); eexists _, _; [by eapply st_take_next_end|by eapply st_take_next].
  - eexists _, _. apply st_take_next_nil.
  - destruct (In1 n L) as (xs & ys & Q & E). eexists _, _. by eapply st_remove_prev.
  - eexists _, _. apply st_remove_prev_nil.
  - destruct (In1 n L) as (xs & ys & Q & E). eexists _, _. by eapply st_remove_next.
  - eexists _, _. apply st_remove_next_nil.
  - inversion_clear L as [|? ? L1 _]. destruct (cut_total h R T n D L1) as (R' & X). eexists _, _. by eapply st_isolate.
  - eexists _, _. apply st_isolate_nil.
  - destruct (absorbed_some (Some n) nns) as (l & Ab). inversion_clear L as [|? ? L1 L2]. destruct (cuts_total l h R T D (absorbed_valid _ _ _ _ L2 Ab)) as (R' & X). eexists _, _. by eapply st_combine_prev.
  - destruct nns as [|[a|] nns].
    + eexists _, _. apply st_nil_combine_prev_none.
    + destruct (absorbed_some (Some a) nns) as (l & Ab). inversion_clear L as [|? ? _ L']. inversion_clear L' as [|? ? L1 L2]. destruct (cuts_total l h R T D (absorbed_valid _ _ _ _ L2 Ab)) as (R' & X). eexists _, _. by eapply st_nil_combine_prev.
    + exfalso. apply NP, exec_panic. exists k, nns. by left.
  - destruct (absorbed_some (Some n) nns) as (l & Ab). inversion_clear L as [|? ? L1 L2]. destruct (cuts_total l h R T D (absorbed_valid _ _ _ _ L2 Ab)) as (R' & X). eexists _, _. by eapply st_combine_next.
  - destruct nns as [|[a|] nns].
    + eexists _, _. apply st_nil_combine_next_none.
    + destruct (absorbed_some (Some a) nns) as (l & Ab). inversion_clear L as [|? ? _ L']. inversion_clear L' as [|? ? L1 L2]. destruct (cuts_total l h R T D (absorbed_valid _ _ _ _ L2 Ab)) as (R' & X). eexists _, _. by eapply st_nil_combine_next.
    + exfalso. apply NP, exec_panic. exists k, nns. by right.
  - eexists _, _. apply st_set_kind.
  - eexists _, _. apply st_set_kind_nil.
  - eexists _, _. apply st_set_text.
  - eexists _, _. apply st_set_text_nil.
Qed.

(** Copying a row. *)
Lemma copy_step h R T n : shows h (Board R T) -> valid h n ->
  exists h' c b', exec h (OCopy (Some n) true) = Ok (h', [Some c]) /\ step (Board R T) (OCopy (Some n) true) b' [Some c] /\ shows h' b'.
Proof.
  intros D V. destruct (on_board h R T n D V) as (xs & ys & Q & E). pose proof (shows_chain _ _ _ _ _ D E) as C.
  destruct (copy_spec h n xs ys C) as (h' & c & xs' & ys' & Ec & Pf & Lh & C' & M & F1 & F2 & F3 & _).
  pose proof (shows_length _ _ _ D) as Lt.
  assert (Ll : length (xs' ++ c :: ys') = length (xs ++ n :: ys)).
  { apply Forall2_length in F1, F3. rewrite !app_length. cbn [length]. lia. }
  assert (Pm : xs' ++ c :: ys' ≡ₚ seq (length h) (length (xs ++ n :: ys))).
  { symmetry. apply NoDup_Permutation_bis; [apply NoDup_ListNoDup, NoDup_seq|rewrite seq_length, Ll; lia|]. intros x Hx%elem_of_list_In%elem_of_seq. apply elem_of_list_In, M. lia. }
  assert (F : Forall2 (fun a b => pay h' b = pay h a) (xs ++ n :: ys) (xs' ++ c :: ys')).
  { assert (P : forall a b, same_node h a h' b -> pay h' b = pay h a) by (intros a b (A1 & A2 & A3); unfold pay; by rewrite A1, A2, A3).
    apply Forall2_app; [eapply Forall2_impl; [exact F1|auto]|constructor; [by apply P|eapply Forall2_impl; [exact F3|auto]]]. }
  set (T2 := map (pay h') (seq (length h) (length (xs' ++ c :: ys')))).
  assert (D' : shows h' (Board ((xs' ++ c :: ys') :: R) (T ++ T2))).
  { apply (shows_new h h' R T); [done|done|done|by rewrite Ll|by rewrite Ll|]. intros i. unfold T2. apply (list_lookup_fmap (pay h')). }
  exists h', c, (Board ((xs' ++ c :: ys') :: R) (T ++ T2)). split; [cbn [exec]; rewrite Ec; done|]. split; [|done].
  apply (st_copy_row R T n xs ys Q xs' c ys'); [done|by rewrite Lt|symmetry; by eapply Forall2_length|by exists T2|unfold T2; rewrite app_length, map_length, seq_length, Ll; done|].
  intros i a Ha. destruct (Forall2_lookup_l _ _ _ _ _ F Ha) as (b & Hb & Pb). exists b. split; [done|].
  destruct D' as (_ & Ct' & _). destruct D as (_ & Ct & _). cbn [cards] in Ct, Ct'.
  assert (Vb : b < length h'). { eapply (valid_chain h'); [exact C'|by eapply elem_of_list_lookup_2]. }
  assert (Va : a < length h). { eapply (valid_chain h); [exact C|by eapply elem_of_list_lookup_2]. }
  rewrite Ct', Ct, !(list_lookup_fmap (pay _)), !lookup_seq_lt by done. cbn. by rewrite Pb.
Qed.
Lemma acyclic_board h : SpecNode.wf h -> acyclic h -> exists b, shows h b.
Proof.
  intros W A.
  assert (G : forall k, k <= length h -> exists R, Forall (chain h) R /\ NoDup (concat R) /\ (forall x, x < k -> x ∈ concat R)).
  { induction k as [|k IH]; intros Hk; [exists []; split; [constructor|]; split; [constructor|]; lia|]. destruct (IH ltac:(lia)) as (R & F & N & I).
    destruct (decide (k ∈ concat R)) as [Hin|Hout].
    - exists R. split; [done|]. split; [done|]. intros x Hx. destruct (decide (x = k)) as [->|]; [done|]. apply I. lia.
    - destruct (acyclic_chain h k W A) as (xs & ys & C); [unfold valid; lia|]. exists ((xs ++ k :: ys) :: R). split; [by constructor|]. split.
      + cbn [concat]. apply NoDup_app. split; [by eapply chain_NoDup|]. split; [|done]. intros x Hx Hy. apply Hout.
        apply elem_of_list_In, in_concat in Hy as (r & Hr & Hy). apply elem_of_list_In in Hr, Hy. rewrite Forall_forall in F.
        assert (Er : r = xs ++ k :: ys) by (apply (chain_unique h r (xs ++ k :: ys) x); [by apply F|done|done|done]).
        apply elem_of_list_In, in_concat. exists r. split; [by apply elem_of_list_In|]. apply elem_of_list_In. rewrite Er. apply elem_of_mid.
      + intros x Hx. cbn [concat]. apply elem_of_app. destruct (decide (x = k)) as [->|]; [left; apply elem_of_mid|]. right. apply I. lia. }
  destruct (G (length h) ltac:(lia)) as (R & F & N & I). exists (Board R (map (pay h) (seq 0 (length h)))). split; [done|]. cbn [rows cards]. split; [done|]. split; [done|].
  symmetry. apply NoDup_Permutation; [apply NoDup_seq|done|]. intros x. rewrite elem_of_seq. split; [intros; apply I; lia|]. intros Hx.
  apply elem_of_list_In, in_concat in Hx as (r & Hr & Hy). apply elem_of_list_In in Hr, Hy. rewrite Forall_forall in F. pose proof (valid_chain h r x (F r Hr) Hy). unfold valid in *. lia.
Qed.
