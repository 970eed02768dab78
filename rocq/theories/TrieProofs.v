(** Lemmas about the trie. *)
From Verif Require Export PureProofs Trie.

Lemma range_bytes_nil s : range_bytes s = [] <-> s = [].
Proof. destruct s; done. Qed.

Section trie.
Context {T : Type} (zero : T).

Lemma find_add bs : forall t v cs,
  find_bytes zero (Some (add_bytes zero t bs v)) cs =
  if bool_decide (cs = bs) then (v, true)
  else match cs with
       | [] => (t_value t, true)
       | _ => if bool_decide (cs `prefix_of` bs) then (zero, true) else find_bytes zero (Some t) cs
       end.
Proof.
  induction bs as [|b bs IH]; intros [tv tn] v cs; cbn [add_bytes].
  - case_bool_decide as D; [by subst|]. destruct cs as [|c cs]; [done|].
    rewrite bool_decide_eq_false_2; [done|]. intros H%prefix_length. simpl in H. lia.
  - destruct cs as [|c cs]; [by rewrite bool_decide_eq_false_2 by done|].
    unfold set_child. cbn [find_bytes trie_next t_next t_value].
    destruct (decide (c = b)) as [->|N].
    + rewrite (bool_decide_eq_true_2 (b = b)) by done. rewrite IH.
      destruct (decide (cs = bs)) as [->|D].
      { by rewrite !bool_decide_eq_true_2 by done. }
      rewrite (bool_decide_eq_false_2 (cs = bs)) by done.
      rewrite (bool_decide_eq_false_2 (b :: cs = b :: bs)) by congruence.
      assert (V : t_value (insert_child (Trie tv tn) b zero) = zero).
      { unfold insert_child. simpl. destruct tn as [m|]; [|done]. destruct (m b) as [[? ?]|]; done. }
      destruct cs as [|d cs].
      { rewrite V, bool_decide_eq_true_2; [done|]. by exists bs. }
      destruct (decide (d :: cs `prefix_of` bs)) as [P|P].
      { rewrite !bool_decide_eq_true_2; [done|by apply prefix_cons|done]. }
      rewrite (bool_decide_eq_false_2 (d :: cs `prefix_of` bs)) by done.
      rewrite (bool_decide_eq_false_2 (b :: d :: cs `prefix_of` b :: bs)) by (intros H%prefix_cons_inv_2; done).
      unfold insert_child. simpl. destruct tn as [m|]; [|done]. destruct (m b) as [[? ?]|]; done.
    + rewrite (bool_decide_eq_false_2 (c = b)) by done.
      rewrite (bool_decide_eq_false_2 (c :: cs = b :: bs)) by congruence.
      rewrite (bool_decide_eq_false_2 (c :: cs `prefix_of` b :: bs)) by (intros H%prefix_cons_inv_1; done).
      destruct tn as [m|]; done.
Qed.

#[global] Instance overwrites_dec k s : Decision (overwrites k s).
Proof. destruct s; simpl; apply _. Defined.

Lemma find_text_add t k v s : find_text zero (Some (add_text zero t k v)) s =
  if bool_decide (overwrites (range_bytes k) (range_bytes s))
  then (if bool_decide (range_bytes s = range_bytes k) then v else zero, true)
  else find_text zero (Some t) s.
Proof.
  unfold find_text, on_trie, add_text. rewrite find_add. unfold overwrites.
  destruct (range_bytes s) as [|c cs] eqn:E.
  - destruct (decide ([] = range_bytes k)) as [D|D].
    + rewrite <- D. by rewrite !bool_decide_eq_true_2 by done.
    + rewrite !bool_decide_eq_false_2 by done. done.
  - destruct (decide (c :: cs = range_bytes k)) as [D|D].
    + rewrite <- D. rewrite !bool_decide_eq_true_2; done.
    + rewrite (bool_decide_eq_false_2 _ D). destruct (bool_decide _); done.
Qed.

Lemma find_text_empty s : find_text zero (Some (empty_trie zero)) s = (zero, bool_decide (s = [])).
Proof.
  unfold find_text, on_trie. destruct (range_bytes s) as [|c cs] eqn:E.
  - apply range_bytes_nil in E as ->. done.
  - rewrite bool_decide_eq_false_2; [done|]. intros ->. done.
Qed.
Lemma new_trie_app es k v : new_trie zero (es ++ [(k, v)]) = add_text zero (new_trie zero es) k v.
Proof. unfold new_trie. by rewrite fold_left_app. Qed.

Lemma found_iff es s : snd (find_text zero (Some (new_trie zero es)) s) = true <->
  s = [] \/ exists k v, (k, v) ∈ es /\ range_bytes s `prefix_of` range_bytes k.
Proof.
  induction es as [|[k v] es IH] using rev_ind.
  - change (new_trie zero []) with (empty_trie zero). rewrite find_text_empty. cbn [snd]. rewrite bool_decide_eq_true.
    split; [by left|]. intros [H|(? & ? & H & _)]; [done|by apply elem_of_nil in H].
  - rewrite new_trie_app, find_text_add. case_bool_decide as D.
    + cbn [snd]. split; [intros _|done]. destruct (decide (s = [])) as [?|N]; [by left|]. right. exists k, v.
      split; [apply elem_of_app; right; by apply elem_of_list_singleton|].
      unfold overwrites in D. destruct (range_bytes s) as [|c cs] eqn:E; [destruct (N (proj1 (range_bytes_nil s) E))|exact D].
    + rewrite IH. split; (intros [H|(k' & v' & H & P)]; [by left|]).
      * right. exists k', v'. split; [apply elem_of_app; by left|done].
      * apply elem_of_app in H as [H|H]; [right; by exists k', v'|].
        apply elem_of_list_singleton in H as [= -> ->]. unfold overwrites in D.
        destruct (range_bytes s) eqn:E; [left; exact (proj1 (range_bytes_nil s) E)|done].
Qed.
Lemma value_last es1 k v es2 s : overwrites (range_bytes k) (range_bytes s) ->
  (forall k' v', (k', v') ∈ es2 -> ~ overwrites (range_bytes k') (range_bytes s)) ->
  find_text zero (Some (new_trie zero (es1 ++ (k, v) :: es2))) s =
    (if bool_decide (range_bytes s = range_bytes k) then v else zero, true).
Proof.
  intros O. induction es2 as [|[k' v'] es2 IH] using rev_ind; intros N.
  - rewrite new_trie_app, find_text_add. by rewrite (bool_decide_eq_true_2 _ O).
  - rewrite app_comm_cons, app_assoc, new_trie_app, find_text_add. rewrite bool_decide_eq_false_2.
    + apply IH. intros k2 v2 H. apply (N k2 v2). apply elem_of_app. by left.
    + apply (N k' v'). apply elem_of_app. right. by apply elem_of_list_singleton.
Qed.
Lemma value_none es s : (forall k v, (k, v) ∈ es -> ~ overwrites (range_bytes k) (range_bytes s)) ->
  fst (find_text zero (Some (new_trie zero es)) s) = zero.
Proof.
  induction es as [|[k' v'] es IH] using rev_ind; intros N; [by rewrite find_text_empty|].
  rewrite new_trie_app, find_text_add. rewrite bool_decide_eq_false_2.
  + apply IH. intros k2 v2 H. apply (N k2 v2). apply elem_of_app. by left.
  + apply (N k' v'). apply elem_of_app. right. by apply elem_of_list_singleton.
Qed.
(** The last entry that overwrites [s]. *)
Lemma last_overwrite (es : list (str * T)) s :
  (exists es1 k v es2, es = es1 ++ (k, v) :: es2 /\ overwrites (range_bytes k) (range_bytes s) /\
     forall k' v', (k', v') ∈ es2 -> ~ overwrites (range_bytes k') (range_bytes s)) \/
  (forall k v, (k, v) ∈ es -> ~ overwrites (range_bytes k) (range_bytes s)).
Proof.
  induction es as [|[k v] es [(es1 & k1 & v1 & es2 & -> & O & N)|N]].
  - right. by intros k v H%elem_of_nil.
  - left. by exists ((k, v) :: es1), k1, v1, es2.
  - destruct (decide (overwrites (range_bytes k) (range_bytes s))) as [O|O].
    + left. by exists [], k, v, es.
    + right. intros k' v' [H|H]%elem_of_cons; [by injection H as -> ->|by eapply N].
Qed.
Lemma order_independent es es' : Permutation es es' ->
  (forall k v k' v', (k, v) ∈ es -> (k', v') ∈ es -> range_bytes k `prefix_of` range_bytes k' -> (k, v) = (k', v')) ->
  forall s, find_text zero (Some (new_trie zero es)) s = find_text zero (Some (new_trie zero es')) s.
Proof.
  intros P I s. rewrite (surjective_pairing (find_text _ (Some (new_trie zero es)) s)).
  rewrite (surjective_pairing (find_text _ (Some (new_trie zero es')) s)). f_equal.
  2:{ apply eq_true_iff_eq. rewrite !found_iff. by setoid_rewrite P. }
  destruct (last_overwrite es s) as [(es1 & k1 & v1 & es2 & E & O & N)|N].
  - destruct (last_overwrite es' s) as [(es3 & k2 & v2 & es4 & E' & O' & N')|N'].
    2:{ exfalso. apply (N' k1 v1); [|done]. rewrite <- P, E. apply elem_of_app. right. by left. }
    rewrite E at 1. rewrite E' at 1. rewrite !value_last by done. cbn [fst].
    assert (I1 : (k1, v1) ∈ es) by (rewrite E; apply elem_of_app; right; by left).
    assert (I2 : (k2, v2) ∈ es) by (rewrite P, E'; apply elem_of_app; right; by left).
    assert (G : forall k v k' v', (k, v) ∈ es -> (k', v') ∈ es -> overwrites (range_bytes k') (range_bytes s) ->
       range_bytes s = range_bytes k -> (k, v) = (k', v')).
    { intros k v k' v' Hk Hk' Ov Eq. apply I; [done|done|]. rewrite <- Eq. unfold overwrites in Ov.
      destruct (range_bytes s); [rewrite Ov; done|done]. }
    repeat case_bool_decide; [|..|done].
    + pose proof (G _ _ _ _ I1 I2 O' ltac:(done)). congruence.
    + pose proof (G _ _ _ _ I1 I2 O' ltac:(done)). congruence.
    + pose proof (G _ _ _ _ I2 I1 O ltac:(done)). congruence.
  - rewrite !value_none; [done| |done]. intros k v H. apply (N k v). by rewrite P.
Qed.
End trie.
