(** NewNodes. *)
From Verif Require Export NodeCopy.

(** Nodes allocated from [b] on for [ts], the first linked back to [p]. *)
Fixpoint fresh (b : nat) (p : ptr) (line : Z) (ts : list str) : list node :=
  match ts with
  | [] => []
  | t :: r => mkNode line (kind_new t) t p (match r with [] => None | _ => Some (S b) end)
              :: fresh (S b) (Some b) (line + count_nl t) r
  end.
Lemma fresh_length b p line ts : length (fresh b p line ts) = length ts.
Proof. revert b p line. induction ts; intros; simpl; auto. Qed.

Lemma alter_end2 (h r : heap) a b f : alter f (S (length h)) (h ++ a :: b :: r) = h ++ a :: f b :: r.
Proof. rewrite alter_app_r_alt by lia. by replace (S (length h) - length h) with 1 by lia. Qed.

Lemma new_nodes_loop_spec ts : forall (G : heap) n line, n_next n = None ->
  new_nodes_loop (G ++ [n]) (Some (length G)) line ts =
  G ++ with_next (match ts with [] => None | _ => Some (S (length G)) end) n
    :: fresh (S (length G)) (Some (length G)) line ts.
Proof.
  induction ts as [|t r IH]; intros G n line En.
  - simpl. f_equal. f_equal. destruct n. simpl in *. by subst.
  - cbn [new_nodes_loop]. unfold new_node, alloc.
    rewrite <- app_assoc. cbn [app]. rewrite app_length. cbn [length]. rewrite Nat.add_1_r.
    set (nd := mkNode line (kind_new t) t None None).
    set (H := G ++ [n; nd]).
    assert (L0 : H !! length G = Some n) by (unfold H; by rewrite list_lookup_middle).
    assert (L1 : H !! S (length G) = Some nd).
    { unfold H. rewrite lookup_app_r by lia. by replace (S (length G) - length G) with 1 by lia. }
    assert (I : insert_next H (Some (length G)) (Some (S (length G))) =
       (G ++ [with_next (Some (S (length G))) n; mkNode line (kind_new t) t (Some (length G)) None], (None, None))).
    { unfold insert_next. unfold ptr_eqb at 1. rewrite bool_decide_eq_false_2 by (intros [= ?]; lia).
      assert (NX : next_of H (Some (length G)) = None) by (unfold next_of; by rewrite (field_lookup _ _ _ _ _ L0)).
      assert (P1 : prev_of H (Some (S (length G))) = None) by (unfold prev_of; by rewrite (field_lookup _ _ _ _ _ L1)).
      assert (N1 : next_of H (Some (S (length G))) = None) by (unfold next_of; by rewrite (field_lookup _ _ _ _ _ L1)).
      rewrite NX. unfold ptr_eqb at 1. rewrite bool_decide_eq_false_2 by done. cbn [orb]. rewrite P1, N1.
      f_equal. cbn [set_next set_prev].
      unfold ptr_eqb. rewrite !(bool_decide_eq_false_2 (Some (length G) = Some (S (length G)))) by (intros [= ?]; lia). rewrite NX.
      rewrite !(bool_decide_eq_false_2 (Some (S (length G)) = Some (length G))) by (intros [= ?]; lia).
      rewrite ?(bool_decide_eq_false_2 (Some (S (length G)) = None)) by done.
      unfold H. rewrite alter_end'.
      set (H1 := G ++ with_next _ _ :: [nd]).
      assert (L2 : H1 !! S (length G) = Some nd).
      { unfold H1. rewrite lookup_app_r by lia. by replace (S (length G) - length G) with 1 by lia. }
      assert (P2 : prev_of H1 (Some (S (length G))) = None) by (unfold prev_of; by rewrite (field_lookup _ _ _ _ _ L2)).
      rewrite P2. unfold H1. rewrite alter_end2.
      set (H2 := G ++ _ :: _ :: []).
      assert (L3 : H2 !! S (length G) = Some (with_prev (Some (length G)) nd)).
      { unfold H2. rewrite lookup_app_r by lia. by replace (S (length G) - length G) with 1 by lia. }
      assert (N2 : next_of H2 (Some (S (length G))) = None) by (unfold next_of; by rewrite (field_lookup _ _ _ _ _ L3)).
      rewrite N2. unfold H2. rewrite alter_end2. reflexivity. }
    rewrite I. set (n1 := with_next _ n).
    assert (NX : next_of (G ++ [n1; mkNode line (kind_new t) t (Some (length G)) None]) (Some (length G)) = Some (S (length G))).
    { unfold next_of. erewrite field_lookup; [|by rewrite list_lookup_middle]. done. }
    rewrite NX.
    specialize (IH (G ++ [n1]) (mkNode line (kind_new t) t (Some (length G)) None) (line + count_nl t)%Z eq_refl).
    rewrite app_length in IH. cbn [length] in IH. rewrite Nat.add_1_r in IH.
    rewrite <- app_assoc in IH. cbn [app] in IH. rewrite IH. rewrite <- app_assoc. cbn [app].
    unfold with_next. simpl. destruct r; reflexivity.
Qed.

Lemma fresh_seg H q ts : forall b line, (forall i n, fresh b q line ts !! i = Some n -> H !! (b + i) = Some n) ->
  seg H q (seq b (length ts)) None.
Proof.
  revert q. induction ts as [|l r IH]; intros q b line E; [done|].
  pose proof (E 0 _ eq_refl) as E0. rewrite Nat.add_0_r in E0.
  cbn [length seq seg]. split_and!.
  - by eapply lookup_lt_Some.
  - unfold prev_of. by rewrite (field_lookup _ _ _ _ _ E0).
  - unfold next_of. rewrite (field_lookup _ _ _ _ _ E0). by destruct r.
  - eapply IH. intros i n Hi. replace (S b + i) with (b + S i) by lia. apply E. exact Hi.
Qed.
Lemma fresh_text H q ts : forall b line, (forall i n, fresh b q line ts !! i = Some n -> H !! (b + i) = Some n) ->
  map (fun l => text_of H (Some l)) (seq b (length ts)) = ts.
Proof.
  revert q. induction ts as [|l r IH]; intros q b line E; [done|].
  pose proof (E 0 _ eq_refl) as E0. rewrite Nat.add_0_r in E0.
  cbn [length seq map]. f_equal.
  - unfold text_of. by rewrite (field_lookup _ _ _ _ _ E0).
  - eapply IH. intros i n Hi. replace (S b + i) with (b + S i) by lia. apply E. exact Hi.
Qed.
Lemma fresh_kind H q ts : forall b line, (forall i n, fresh b q line ts !! i = Some n -> H !! (b + i) = Some n) ->
  map (fun l => kind_of H (Some l)) (seq b (length ts)) = map kind_new ts.
Proof.
  revert q. induction ts as [|l r IH]; intros q b line E; [done|].
  pose proof (E 0 _ eq_refl) as E0. rewrite Nat.add_0_r in E0.
  cbn [length seq map]. f_equal.
  - unfold kind_of. by rewrite (field_lookup _ _ _ _ _ E0).
  - eapply IH. intros i n Hi. replace (S b + i) with (b + S i) by lia. apply E. exact Hi.
Qed.
Lemma fresh_line H q ts : forall b line, (forall i n, fresh b q line ts !! i = Some n -> H !! (b + i) = Some n) ->
  forall i, i < length ts -> line_of H (Some (b + i)) = (line + count_nl (concat (take i ts)))%Z.
Proof.
  revert q. induction ts as [|t r IH]; intros q b line E i Hi; [simpl in Hi; lia|].
  destruct i as [|i].
  - pose proof (E 0 _ eq_refl) as E0. unfold line_of. rewrite (field_lookup _ _ _ _ _ E0). simpl.
    unfold count_nl. simpl. lia.
  - replace (b + S i) with (S b + i) by lia.
    rewrite (IH (Some b) (S b) (line + count_nl t)%Z); [|intros j n Hj; replace (S b + j) with (b + S j) by lia; apply E; exact Hj|simpl in Hi; lia].
    simpl. unfold count_nl. rewrite filter_app, app_length. lia.
Qed.

(** The state after NewNodes. *)
Lemma new_nodes_spec h line t ts :
  let '(h', r) := new_nodes h line (t :: ts) in
  exists ls,
    r = hd_ptr ls None /\ r = Some (length h) /\ h `prefix_of` h' /\
    chain h' ls /\ (forall x, length h <= x < length h' <-> x ∈ ls) /\
    map (fun l => text_of h' (Some l)) ls = t :: ts /\
    map (fun l => kind_of h' (Some l)) ls = map kind_new (t :: ts) /\
    (forall i l, ls !! i = Some l ->
       line_of h' (Some l) = (line + count_nl (concat (take (i - 1) ts)))%Z).
Proof.
  unfold new_nodes, new_node, alloc. rewrite new_nodes_loop_spec by done.
  set (b := length h). set (n := with_next _ _).
  set (H := h ++ n :: fresh (S b) (Some b) line ts).
  exists (seq b (S (length ts))).
  assert (E0 : H !! b = Some n) by (unfold H, b; by rewrite list_lookup_middle).
  assert (E1 : forall i m, fresh (S b) (Some b) line ts !! i = Some m -> H !! (S b + i) = Some m).
  { intros i m Hi. unfold H. rewrite lookup_app_r by (fold b; lia). fold b.
    replace (S b + i - b) with (S i) by lia. done. }
  split_and!; try done.
  - by eexists.
  - cbn [seq]. unfold chain. change (b :: seq (S b) (length ts)) with ([b] ++ seq (S b) (length ts)).
    apply seg_app. split.
    + simpl seg. split_and!; [by eapply lookup_lt_Some| | |done].
      * unfold prev_of. by rewrite (field_lookup _ _ _ _ _ E0).
      * unfold next_of. rewrite (field_lookup _ _ _ _ _ E0). unfold n. by destruct ts.
    + by apply (fresh_seg H (Some b) ts (S b) line).
  - intros x. rewrite elem_of_seq. unfold H. rewrite app_length. simpl. rewrite fresh_length. fold b. lia.
  - cbn [seq map]. f_equal.
    + unfold text_of. rewrite (field_lookup _ _ _ _ _ E0). done.
    + by apply (fresh_text H (Some b) ts (S b) line).
  - cbn [seq map]. f_equal.
    + unfold kind_of. rewrite (field_lookup _ _ _ _ _ E0). done.
    + by apply (fresh_kind H (Some b) ts (S b) line).
  - intros i l Hi. apply lookup_seq in Hi as [-> Hi]. destruct i as [|i].
    + rewrite Nat.add_0_r. unfold line_of. rewrite (field_lookup _ _ _ _ _ E0). simpl. unfold count_nl. simpl. lia.
    + replace (b + S i) with (S b + i) by lia. replace (S i - 1) with i by lia.
      apply (fresh_line H (Some b) ts (S b) line); [done|lia].
Qed.

Lemma new_node_spec h line t ks :
  let '(h', c) := new_node h line t ks in
  c = length h /\ h `prefix_of` h' /\ chain h' [c] /\ (forall x, length h <= x < length h' <-> x ∈ [c]) /\
  line_of h' (Some c) = line /\ text_of h' (Some c) = t /\
  kind_of h' (Some c) = match ks with k :: _ => k | [] => kind_new t end.
Proof.
  unfold new_node, alloc.
  destruct ks as [|k ks];
  (match goal with |- context [h ++ [?n]] => set (nd := n) end;
  assert (E : (h ++ [nd]) !! length h = Some nd) by (by rewrite list_lookup_middle);
  unfold chain, line_of, text_of, kind_of; cbn [seg]; unfold next_of, prev_of;
  rewrite !(field_lookup _ _ _ _ _ E); split_and!; try done;
  [by eexists|by eapply lookup_lt_Some|
   intros x; rewrite app_length, elem_of_list_singleton; simpl; lia]).
Qed.
