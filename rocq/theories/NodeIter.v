(** Iteration, First/Last, Combine, NewNodes. *)
From Verif Require Export NodeAcyc.

(** ** Iteration *)

Lemma loop_spec {S} (iter : S -> loc -> ptr) (nx : loc -> ptr) (fn : loc -> S -> res (S * bool)) (Inv : S -> Prop) :
  (forall s l, Inv s -> iter s l = nx l) ->
  (forall l s s' b, Inv s -> fn l s = Ok (s', b) -> Inv s') ->
  forall ls p fuel s, Inv s -> path nx p ls None -> length ls < fuel ->
  loop fuel iter fn p s = iter_spec fn ls s.
Proof.
  intros Hi Hf ls. induction ls as [|l r IH]; intros p fuel s I P F; destruct fuel as [|f]; try (simpl in F; lia).
  - simpl in P. subst. done.
  - destruct P as [-> P]. simpl. destruct (fn l s) as [[s' [|]]| |] eqn:E; try done.
    assert (I' : Inv s') by eauto. rewrite (Hi s' l I'). apply IH; [done|done|simpl in F; lia].
Qed.

Lemma iter_next_spec {S} (hp : S -> heap) h fn (ls : list loc) p fuel (s : S) :
  (forall l s s' b, (forall x, next_of (hp s) (Some x) = next_of h (Some x)) -> fn l s = Ok (s', b) ->
     forall x, next_of (hp s') (Some x) = next_of h (Some x)) ->
  (forall x, next_of (hp s) (Some x) = next_of h (Some x)) ->
  nseg h p ls None -> length ls < fuel ->
  iter_next hp fuel p fn s = iter_spec fn ls s.
Proof.
  intros Hf Hs P F. unfold iter_next.
  apply (loop_spec _ (nf h) fn (fun s => forall x, next_of (hp s) (Some x) = next_of h (Some x)));
    [intros s' l I; apply I|exact Hf|exact Hs|by apply path_nseg|exact F].
Qed.
Lemma path_pseg h p ls q : path (fun x => prev_of h (Some x)) p ls q <-> pseg h p ls q.
Proof. revert p. induction ls as [|l r IH]; intros p; simpl; [done|]. by rewrite IH. Qed.
Lemma iter_prev_spec {S} (hp : S -> heap) h fn (ls : list loc) p fuel (s : S) :
  (forall l s s' b, (forall x, prev_of (hp s) (Some x) = prev_of h (Some x)) -> fn l s = Ok (s', b) ->
     forall x, prev_of (hp s') (Some x) = prev_of h (Some x)) ->
  (forall x, prev_of (hp s) (Some x) = prev_of h (Some x)) ->
  pseg h p ls None -> length ls < fuel ->
  iter_prev hp fuel p fn s = iter_spec fn ls s.
Proof.
  intros Hf Hs P F. unfold iter_prev.
  apply (loop_spec _ (fun x => prev_of h (Some x)) fn (fun s => forall x, prev_of (hp s) (Some x) = prev_of h (Some x)));
    [intros s' l I; apply I|exact Hf|exact Hs|by apply path_pseg|exact F].
Qed.

(** A callback that never stops the iteration never gets out of a ring. *)
Lemma loop_ring {S} (iter : S -> loc -> ptr) (nx : loc -> ptr) (fn : loc -> S -> res (S * bool)) (Inv : S -> Prop) a r :
  (forall s l, Inv s -> iter s l = nx l) ->
  (forall l s, Inv s -> exists s', fn l s = Ok (s', true) /\ Inv s') ->
  path nx (Some a) (a :: r) (Some a) ->
  forall fuel s p xs ys, a :: r = xs ++ ys -> path nx p ys (Some a) -> Inv s ->
  loop fuel iter fn p s = OutOfFuel.
Proof.
  intros Hi Hf Hp fuel. induction fuel as [|f IH]; intros s p xs ys E P I.
  - destruct ys as [|y ys]; simpl in P; [subst p|destruct P as [-> _]]; done.
  - assert (P2 : exists xs l ys, a :: r = xs ++ l :: ys /\ p = Some l /\ path nx (nx l) ys (Some a)).
    { destruct ys as [|y ys].
      - simpl in P. exists [], a, r. destruct Hp as [_ Hp]. split_and!; auto.
      - destruct P as [-> P]. eauto 6. }
    destruct P2 as (xs' & l & ys' & E' & -> & P'). simpl.
    destruct (Hf l s I) as (s' & -> & I'). rewrite (Hi _ _ I').
    eapply (IH s' _ (xs' ++ [l]) ys'); [by rewrite <- app_assoc|done|done].
Qed.

(** The pure version. *)
Fixpoint scan_list {A} (fn : loc -> A -> A * bool) (ls : list loc) (a : A) : A * ptr :=
  match ls with
  | [] => (a, None)
  | l :: r => let '(a', b) := fn l a in if b then scan_list fn r a' else (a', Some l)
  end.
Lemma iter_spec_pure {A} (fn : loc -> A -> A * bool) ls a :
  iter_spec (fun l a => Ok (fn l a)) ls a = Ok (scan_list fn ls a).
Proof.
  revert a. induction ls as [|l r IH]; intros a; [done|]. simpl.
  destruct (fn l a) as [a' []]; [apply IH|done].
Qed.

Lemma scan_next_spec {A} h p ls (fn : loc -> A -> A * bool) a :
  nseg h p ls None -> (forall x, x ∈ ls -> valid h x) ->
  scan_next h p fn a = Ok (scan_list fn ls a).
Proof.
  intros P V. unfold scan_next. rewrite <- iter_spec_pure.
  apply (loop_spec _ (nf h) _ (fun _ => True)); auto.
  - by apply path_nseg.
  - pose proof (NoDup_bound ls (length h) (nseg_NoDup _ _ _ P) V). lia.
Qed.
Lemma path_NoDup' f p ls : path f p ls None -> NoDup ls.
Proof. apply path_NoDup. Qed.
Lemma scan_prev_spec {A} h p ls (fn : loc -> A -> A * bool) a :
  pseg h p ls None -> (forall x, x ∈ ls -> valid h x) ->
  scan_prev h p fn a = Ok (scan_list fn ls a).
Proof.
  intros P V. unfold scan_prev. rewrite <- iter_spec_pure. apply path_pseg in P.
  apply (loop_spec _ (fun x => prev_of h (Some x)) _ (fun _ => True)); auto.
  pose proof (NoDup_bound ls (length h) (path_NoDup _ _ _ P) V). lia.
Qed.
Lemma scan_next_seg {A} h q ls (fn : loc -> A -> A * bool) a :
  seg h q ls None -> scan_next h (hd_ptr ls None) fn a = Ok (scan_list fn ls a).
Proof. intros S. apply scan_next_spec; [by eapply seg_nseg|intros; by eapply seg_valid]. Qed.

(** ** First and Last *)
Lemma last_of_seg h q xs l ys : seg h q (xs ++ l :: ys) None -> last_of h (Some l) = Ok (last (l :: ys)).
Proof.
  intros S. apply seg_app in S as [_ S].
  unfold last_of. change (Some l) with (hd_ptr (l :: ys) None).
  rewrite (scan_next_seg _ _ _ _ _ S). simpl res_bind. f_equal.
  revert l q xs S. induction ys as [|y ys IH]; intros l q xs (V & P & N & S); cbn [scan_list].
  - rewrite N. done.
  - rewrite N. replace (negb (ptr_eqb (Some y) None)) with true by done.
    rewrite (IH y q (xs ++ [l])); [done|]. rewrite last_ptr_snoc. exact S.
Qed.
Lemma first_of_chain h xs l ys : chain h (xs ++ l :: ys) -> first_of h (Some l) = Ok (head (xs ++ [l])).
Proof.
  intros S. unfold chain in S. replace (xs ++ l :: ys) with ((xs ++ [l]) ++ ys) in S by (by rewrite <- app_assoc).
  apply seg_app in S as [S _].
  assert (V : forall x, x ∈ reverse (xs ++ [l]) -> valid h x).
  { intros x Hx. rewrite elem_of_reverse in Hx. by eapply seg_valid. }
  pose proof (seg_pseg _ _ _ _ S) as P. rewrite last_ptr_snoc in P.
  unfold first_of. rewrite (scan_prev_spec _ _ _ _ _ P V). simpl res_bind. f_equal.
  clear P V. revert l ys S. induction xs as [|x xs IH] using rev_ind; intros l ys S.
  - destruct S as (V & P & N & _). simpl. change (reverse [l]) with [l]. cbn [scan_list]. rewrite P. done.
  - rewrite reverse_snoc. apply seg_app in S as [S (V & P & N & _)].
    rewrite last_ptr_snoc in P.
    cbn [scan_list]. rewrite P. replace (negb (ptr_eqb (Some x) None)) with true by done.
    rewrite (IH x [l]); [|exact S]. destruct xs; simpl; done.
Qed.

(** ** Combine *)

Definition isolate_all (h : heap) (ps : list ptr) : heap := fold_left isolate ps h.

Lemma same_payload_isolate_all h ps : same_payload h (isolate_all h ps).
Proof.
  revert h. induction ps as [|p ps IH]; intros h; [apply same_payload_refl|].
  eapply same_payload_trans; [apply same_payload_isolate|apply IH].
Qed.
Lemma wf_isolate_all h ps : wf h -> Forall (live h) ps -> wf (isolate_all h ps).
Proof.
  intros W F. revert h W F. induction ps as [|p ps IH]; intros h W F; [done|].
  apply Forall_cons in F as [F1 F2]. apply IH; [by apply wf_isolate|].
  eapply Forall_impl; [exact F2|]. intros [x|]; [|done]. unfold live, valid. 
  by rewrite (proj1 (same_payload_isolate h p)).
Qed.
Lemma acyclic_isolate_all h ps : wf h -> acyclic h -> Forall (live h) ps -> acyclic (isolate_all h ps).
Proof.
  intros W A F. revert h W A F. induction ps as [|p ps IH]; intros h W A F; [done|].
  apply Forall_cons in F as [F1 F2]. apply IH; [by apply wf_isolate|by apply acyclic_isolate|].
  eapply Forall_impl; [exact F2|]. intros [x|]; [|done]. unfold live, valid. 
  by rewrite (proj1 (same_payload_isolate h p)).
Qed.

Lemma text_same_payload h h' p : same_payload h h' -> text_of h' p = text_of h p.
Proof. intros [_ H]. apply H. Qed.

Lemma combine_loop_spec h n nns buf :
  combine_loop h n nns buf =
  (isolate_all h (absorbed n nns), buf ++ map (text_of h) (absorbed n nns)).
Proof.
  revert h buf. induction nns as [|p nns IH]; intros h buf; simpl.
  - by rewrite app_nil_r.
  - destruct (ptr_cases p None) as [[E1 H1]|[E1 H1]]; rewrite E1; simpl.
    + unfold absorbed. rewrite filter_cons_False by tauto. apply IH.
    + destruct (ptr_cases n p) as [[E2 H2]|[E2 H2]]; rewrite E2; simpl.
      * unfold absorbed. rewrite filter_cons_False by (intros [_ ?]; congruence). apply IH.
      * unfold absorbed. rewrite filter_cons_True by (split; congruence). rewrite IH. simpl.
        f_equal. rewrite <- app_assoc. simpl. f_equal. f_equal. apply map_ext.
        intros q. apply text_same_payload, same_payload_isolate.
Qed.

Lemma links_set_kind h p k x : same_links h (set_kind h p k) x.
Proof. destruct p as [l|]; [|done]. split; apply field_alter_same; done. Qed.
Lemma links_set_text h p t x : same_links h (set_text h p t) x.
Proof. destruct p as [l|]; [|done]. split; apply field_alter_same; done. Qed.
Lemma length_set_kind h p k : length (set_kind h p k) = length h.
Proof. destruct p; [apply alter_length|done]. Qed.
Lemma length_set_text h p t : length (set_text h p t) = length h.
Proof. destruct p; [apply alter_length|done]. Qed.
Lemma wf_set_kind h p k : wf h -> wf (set_kind h p k).
Proof. intros W. eapply wf_same_links; [exact W|apply length_set_kind|]. intros; apply links_set_kind. Qed.
Lemma wf_set_text h p t : wf h -> wf (set_text h p t).
Proof. intros W. eapply wf_same_links; [exact W|apply length_set_text|]. intros; apply links_set_text. Qed.

Lemma text_set_kind h p k q : text_of (set_kind h p k) q = text_of h q.
Proof. destruct p; [|done]. apply field_alter_same. done. Qed.
Lemma line_set_kind h p k q : line_of (set_kind h p k) q = line_of h q.
Proof. destruct p; [|done]. apply field_alter_same. done. Qed.
Lemma kind_set_kind h l k x : valid h l ->
  kind_of (set_kind h (Some l) k) (Some x) = if decide (x = l) then k else kind_of h (Some x).
Proof.
  intros V. unfold kind_of, set_kind. rewrite field_alter. case_decide; [|done]. subst.
  destruct (lookup_lt_is_Some_2 h l V) as [n ->]. done.
Qed.
Lemma text_set_text h l t x : valid h l ->
  text_of (set_text h (Some l) t) (Some x) = if decide (x = l) then t else text_of h (Some x).
Proof.
  intros V. unfold text_of, set_text. rewrite field_alter. case_decide; [|done]. subst.
  destruct (lookup_lt_is_Some_2 h l V) as [n ->]. done.
Qed.
Lemma kind_set_text h p t q : kind_of (set_text h p t) q = kind_of h q.
Proof. destruct p; [|done]. apply field_alter_same. done. Qed.
Lemma line_set_text h p t q : line_of (set_text h p t) q = line_of h q.
Proof. destruct p; [|done]. apply field_alter_same. done. Qed.

(** A chain depends on the links only. *)
Lemma seg_same_links h h' p ls q : length h' = length h -> (forall x, same_links h h' x) -> seg h p ls q -> seg h' p ls q.
Proof. intros L F. apply seg_frame; [lia|auto]. Qed.


Lemma combine_spec rev_ h l k nns :
  combine rev_ h (Some l) k nns =
  Ok (match nns with
      | [] => set_kind h (Some l) k
      | _ => set_text (isolate_all (set_kind h (Some l) k) (absorbed (Some l) nns)) (Some l)
               (combined rev_ (text_of h (Some l)) (map (text_of h) (absorbed (Some l) nns)))
      end, Some l).
Proof.
  unfold combine. destruct nns as [|a rest]; [done|].
  rewrite combine_loop_spec. unfold set_text. do 3 f_equal. f_equal.
  assert (E : map (text_of (set_kind h (Some l) k)) (absorbed (Some l) (a :: rest)) = map (text_of h) (absorbed (Some l) (a :: rest))).
  { apply map_ext. intros; apply text_set_kind. }
  rewrite E, text_set_kind. unfold GoStr.join, combined. destruct rev_; simpl; [|done].
  rewrite reverse_cons. rewrite concat_app. simpl. rewrite app_nil_r. unfold reverse. by rewrite rev_append_rev, app_nil_r.
Qed.
