(** Copy. *)
From Verif Require Export NodeIter.

Lemma field_lookup {A} (d : A) f (h : heap) l n : h !! l = Some n -> field d f h (Some l) = f n.
Proof. intros E. simpl. by rewrite E. Qed.
Lemma field_ext {A} (d : A) f (h h' : heap) l : h !! l = h' !! l -> field d f h (Some l) = field d f h' (Some l).
Proof. intros E. simpl. by rewrite E. Qed.

(** The node the copy of [l] is made of, with given links. *)
Definition cp (h : heap) (l : loc) (p q : ptr) : node :=
  mkNode (line_of h (Some l)) (kind_of h (Some l)) (text_of h (Some l)) p q.

(** Backward copies of the nodes [ls] (going towards the head), the first one
    allocated as [b] and followed by [q]. *)
Fixpoint bcopies (h : heap) (b : nat) (q : ptr) (ls : list loc) : list node :=
  match ls with
  | [] => []
  | l :: r => cp h l (match r with [] => None | _ => Some (S b) end) q :: bcopies h (S b) (Some b) r
  end.
Fixpoint fcopies (h : heap) (b : nat) (p : ptr) (ls : list loc) : list node :=
  match ls with
  | [] => []
  | l :: r => cp h l p (match r with [] => None | _ => Some (S b) end) :: fcopies h (S b) (Some b) r
  end.

Lemma cp_ext h h' l p q : h !! l = h' !! l -> cp h l p q = cp h' l p q.
Proof. intros E. unfold cp, line_of, kind_of, text_of, field. by rewrite E. Qed.

Lemma alter_end (h r : heap) n f : alter f (length h) ((h ++ [n]) ++ r) = h ++ f n :: r.
Proof.
  rewrite <- app_assoc. simpl. rewrite alter_app_r_alt by lia. by rewrite Nat.sub_diag.
Qed.

Lemma alter_end' (h r : heap) n f : alter f (length h) (h ++ n :: r) = h ++ f n :: r.
Proof. rewrite alter_app_r_alt by lia. by rewrite Nat.sub_diag. Qed.

Lemma deep_copy_bwd h0 : forall ls f (h : heap) p nn,
  pseg h0 p ls None -> length ls <= f ->
  (forall x, x ∈ ls -> h !! x = h0 !! x /\ x < length h) ->
  deep_copy f h p None (Some nn) =
    Ok (h ++ bcopies h0 (length h) (Some nn) ls, match ls with [] => None | _ => Some (length h) end).
Proof.
  induction ls as [|l r IH]; intros f h p nn P F E.
  - simpl in P. subst p. destruct f; simpl; by rewrite app_nil_r.
  - destruct P as [-> P]. destruct f as [|f]; [simpl in F; lia|].
    destruct (E l) as [El Vl]; [by left|].
    cbn [deep_copy]. unfold alloc.
    change (mkNode (line_of h (Some l)) (kind_of h (Some l)) (text_of h (Some l)) None None) with (cp h l None None).
    assert (Ep : prev_of (h ++ [cp h l None None]) (Some l) = prev_of h0 (Some l)).
    { apply field_ext. rewrite lookup_app_l by done. done. }
    rewrite Ep. rewrite (IH f _ _ (length h) P); [|simpl in F; lia|].
    + rewrite app_length. simpl. rewrite alter_end, alter_end'.
      rewrite (cp_ext h h0 l) by done. unfold with_prev, with_next, cp. simpl.
      replace (length h + 1) with (S (length h)) by lia.
      destruct r; reflexivity.
    + intros x Hx. destruct (E x) as [Ex Vx]; [by right|]. rewrite app_length. split; [|simpl; lia].
      rewrite lookup_app_l by done. done.
Qed.
Lemma deep_copy_fwd h0 : forall ls f (h : heap) p nn,
  nseg h0 p ls None -> length ls <= f ->
  (forall x, x ∈ ls -> h !! x = h0 !! x /\ x < length h) ->
  deep_copy f h p (Some nn) None =
    Ok (h ++ fcopies h0 (length h) (Some nn) ls, match ls with [] => None | _ => Some (length h) end).
Proof.
  induction ls as [|l r IH]; intros f h p nn P F E.
  - simpl in P. subst p. destruct f; simpl; by rewrite app_nil_r.
  - destruct P as [-> P]. destruct f as [|f]; [simpl in F; lia|].
    destruct (E l) as [El Vl]; [by left|].
    cbn [deep_copy]. unfold alloc. cbn [res_bind].
    change (mkNode (line_of h (Some l)) (kind_of h (Some l)) (text_of h (Some l)) None None) with (cp h l None None).
    assert (Ep : next_of (h ++ [cp h l None None]) (Some l) = next_of h0 (Some l)).
    { apply field_ext. rewrite lookup_app_l by done. done. }
    rewrite Ep. rewrite (IH f _ _ (length h) P); [|simpl in F; lia|].
    + rewrite app_length. simpl. rewrite alter_end, alter_end'.
      rewrite (cp_ext h h0 l) by done. unfold with_prev, with_next, cp. simpl.
      replace (length h + 1) with (S (length h)) by lia.
      destruct r; reflexivity.
    + intros x Hx. destruct (E x) as [Ex Vx]; [by right|]. rewrite app_length. split; [|simpl; lia].
      rewrite lookup_app_l by done. done.
Qed.

Lemma bcopies_length h b q ls : length (bcopies h b q ls) = length ls.
Proof. revert b q. induction ls; intros; simpl; auto. Qed.
Lemma fcopies_length h b q ls : length (fcopies h b q ls) = length ls.
Proof. revert b q. induction ls; intros; simpl; auto. Qed.

(** The heap after [Copy(true)] of [l], [ps] being the nodes before it, nearest
    first, and [ns] those after it. *)
Definition copied (h : heap) (ps : list loc) (l : loc) (ns : list loc) : heap :=
  let b := length h in
  h ++ cp h l (match ps with [] => None | _ => Some (S b) end)
              (match ns with [] => None | _ => Some (S b + length ps) end)
    :: bcopies h (S b) (Some b) ps ++ fcopies h (S b + length ps) (Some b) ns.

Lemma deep_copy_spec h l ps ns f : valid h l ->
  pseg h (prev_of h (Some l)) ps None -> nseg h (next_of h (Some l)) ns None ->
  (forall x, x ∈ ps ++ ns -> valid h x) -> length ps < f -> length ns < f ->
  deep_copy f h (Some l) None None = Ok (copied h ps l ns, Some (length h)).
Proof.
  intros V P N E F1 F2. destruct f as [|f]; [lia|]. cbn [deep_copy]. unfold alloc.
  change (mkNode (line_of h (Some l)) (kind_of h (Some l)) (text_of h (Some l)) None None) with (cp h l None None).
  assert (Ep : prev_of (h ++ [cp h l None None]) (Some l) = prev_of h (Some l)).
  { apply field_ext. by rewrite lookup_app_l. }
  rewrite Ep. rewrite (deep_copy_bwd h ps f _ _ _ P); [|lia|].
  2:{ intros x Hx. assert (valid h x) as Vx by (apply E, elem_of_app; auto).
      rewrite lookup_app_l by done. rewrite app_length. unfold valid in Vx. simpl. split; [done|lia]. }
  simpl res_bind.
  set (H := (h ++ [cp h l None None]) ++ bcopies h _ _ ps).
  assert (Hl : length H = S (length h) + length ps).
  { unfold H. rewrite !app_length, bcopies_length. simpl. lia. }
  assert (En : next_of H (Some l) = next_of h (Some l)).
  { apply field_ext. unfold H. rewrite <- app_assoc. by rewrite lookup_app_l. }
  rewrite En. rewrite (deep_copy_fwd h ns f _ _ _ N); [|lia|].
  2:{ intros x Hx. assert (valid h x) as Vx by (apply E, elem_of_app; auto).
      rewrite Hl. split; [|unfold valid in Vx; lia].
      unfold H. rewrite <- app_assoc. by rewrite lookup_app_l. }
  simpl. rewrite Hl. unfold H. rewrite <- app_assoc, alter_end, alter_end'.
  rewrite app_length. replace (length h + length [cp h l None None]) with (S (length h)) by (simpl; lia).
  unfold copied, with_prev, with_next, cp. simpl. destruct ps, ns; reflexivity.
Qed.

(** If Copy(true) returns at all, the chain is finite in both directions. *)
Lemma deep_copy_bwd_inv h0 : wf h0 -> forall f h p nn r,
  h0 `prefix_of` h -> live h0 p -> deep_copy f h p None (Some nn) = Ok r ->
  exists ls, pseg h0 p ls None /\ (forall x, x ∈ ls -> valid h0 x).
Proof.
  intros W f. induction f as [|f IH]; intros h p nn r Pre L D.
  - destruct p; [discriminate|]. exists []. split; [done|by intros x H%elem_of_nil].
  - destruct p as [l|]; [|exists []; split; [done|by intros x H%elem_of_nil]].
    cbn [deep_copy] in D. unfold alloc in D.
    set (c := mkNode _ _ _ _ _) in D.
    destruct Pre as [k ->].
    assert (Ep : prev_of ((h0 ++ k) ++ [c]) (Some l) = prev_of h0 (Some l)).
    { apply field_ext. rewrite <- app_assoc. by rewrite lookup_app_l. }
    rewrite Ep in D.
    destruct (deep_copy f _ (prev_of h0 (Some l)) _ _) as [[h1 p1]| |] eqn:D1; try discriminate D.
    apply IH in D1 as (ls & P & V).
    + exists (l :: ls). split; [done|]. intros x [->|Hx]%elem_of_cons; [exact L|auto].
    + exists (k ++ [c]). by rewrite app_assoc.
    + destruct (prev_of h0 (Some l)) eqn:E; [|done]. by eapply wf_prev_valid.
Qed.
Lemma deep_copy_fwd_inv h0 : wf h0 -> forall f h p nn r,
  h0 `prefix_of` h -> live h0 p -> deep_copy f h p (Some nn) None = Ok r ->
  exists ls, nseg h0 p ls None /\ (forall x, x ∈ ls -> valid h0 x).
Proof.
  intros W f. induction f as [|f IH]; intros h p nn r Pre L D.
  - destruct p; [discriminate|]. exists []. split; [done|by intros x H%elem_of_nil].
  - destruct p as [l|]; [|exists []; split; [done|by intros x H%elem_of_nil]].
    cbn [deep_copy] in D. unfold alloc in D. cbn [res_bind] in D.
    set (c := mkNode _ _ _ _ _) in D.
    destruct Pre as [k ->].
    assert (Ep : next_of ((h0 ++ k) ++ [c]) (Some l) = next_of h0 (Some l)).
    { apply field_ext. rewrite <- app_assoc. by rewrite lookup_app_l. }
    rewrite Ep in D.
    destruct (deep_copy f _ (next_of h0 (Some l)) _ _) as [[h1 p1]| |] eqn:D1; try discriminate D.
    apply IH in D1 as (ls & P & V).
    + exists (l :: ls). split; [done|]. intros x [->|Hx]%elem_of_cons; [exact L|auto].
    + exists (k ++ [c]). by rewrite app_assoc.
    + destruct (next_of h0 (Some l)) eqn:E; [|done]. by eapply wf_next_valid.
Qed.

(** The links inside the copies. *)
Lemma fcopies_seg H h q ls : forall b, (forall i n, fcopies h b q ls !! i = Some n -> H !! (b + i) = Some n) ->
  seg H q (seq b (length ls)) None.
Proof.
  revert q. induction ls as [|l r IH]; intros q b E; [done|].
  pose proof (E 0 _ eq_refl) as E0. rewrite Nat.add_0_r in E0.
  cbn [length seq seg]. split_and!.
  - by eapply lookup_lt_Some.
  - unfold prev_of. by rewrite (field_lookup _ _ _ _ _ E0).
  - unfold next_of. rewrite (field_lookup _ _ _ _ _ E0). by destruct r.
  - apply IH. intros i n Hi. replace (S b + i) with (b + S i) by lia. by apply E.
Qed.
Lemma bcopies_seg H h q ls : forall b, (forall i n, bcopies h b q ls !! i = Some n -> H !! (b + i) = Some n) ->
  seg H None (reverse (seq b (length ls))) q.
Proof.
  revert q. induction ls as [|l r IH]; intros q b E; [done|].
  pose proof (E 0 _ eq_refl) as E0. rewrite Nat.add_0_r in E0.
  cbn [length seq]. rewrite reverse_cons. apply seg_app. split.
  - apply IH. intros i n Hi. replace (S b + i) with (b + S i) by lia. by apply E.
  - cbn [seg]. split_and!; [by eapply lookup_lt_Some| | |done].
    + unfold prev_of. rewrite (field_lookup _ _ _ _ _ E0). simpl. destruct r as [|l' r]; [done|].
      cbn [length seq]. rewrite reverse_cons. by rewrite last_ptr_snoc.
    + unfold next_of. by rewrite (field_lookup _ _ _ _ _ E0).
Qed.


Lemma fcopies_payload H h q ls : forall b, (forall i n, fcopies h b q ls !! i = Some n -> H !! (b + i) = Some n) ->
  Forall2 (fun a c => same_node h a H c) ls (seq b (length ls)).
Proof.
  revert q. induction ls as [|l r IH]; intros q b E; [constructor|].
  pose proof (E 0 _ eq_refl) as E0. rewrite Nat.add_0_r in E0.
  cbn [length seq]. constructor.
  - unfold same_node, line_of, kind_of, text_of. by rewrite !(field_lookup _ _ _ _ _ E0).
  - eapply (IH (Some b)). intros i n Hi. replace (S b + i) with (b + S i) by lia. by apply E.
Qed.
Lemma bcopies_payload H h q ls : forall b, (forall i n, bcopies h b q ls !! i = Some n -> H !! (b + i) = Some n) ->
  Forall2 (fun a c => same_node h a H c) ls (seq b (length ls)).
Proof.
  revert q. induction ls as [|l r IH]; intros q b E; [constructor|].
  pose proof (E 0 _ eq_refl) as E0. rewrite Nat.add_0_r in E0.
  cbn [length seq]. constructor.
  - unfold same_node, line_of, kind_of, text_of. by rewrite !(field_lookup _ _ _ _ _ E0).
  - eapply (IH (Some b)). intros i n Hi. replace (S b + i) with (b + S i) by lia. by apply E.
Qed.

Lemma copied_spec h ps l ns :
  let H := copied h ps l ns in let b := length h in
  exists xs' ys',
    H = h ++ drop b H /\ length H = b + S (length ps + length ns) /\
    chain H (xs' ++ b :: ys') /\
    (forall x, b <= x < length H <-> x ∈ xs' ++ b :: ys') /\
    Forall2 (fun a c => same_node h a H c) (reverse ps) xs' /\ same_node h l H b /\
    Forall2 (fun a c => same_node h a H c) ns ys'.
Proof.
  intros H b. set (xs := seq (S b) (length ps)). set (ys := seq (S b + length ps) (length ns)).
  assert (LH : length H = b + S (length ps + length ns)).
  { unfold H, copied. rewrite app_length. simpl. rewrite app_length, bcopies_length, fcopies_length. fold b. lia. }
  assert (Eb : forall i n, bcopies h (S b) (Some b) ps !! i = Some n -> H !! (S b + i) = Some n).
  { intros i n Hi. unfold H, copied. rewrite lookup_app_r by (fold b; lia).
    replace (S b + i - length h) with (S i) by (fold b; lia). simpl.
    rewrite lookup_app_l; [done|]. by eapply lookup_lt_Some. }
  assert (Ef : forall i n, fcopies h (S b + length ps) (Some b) ns !! i = Some n -> H !! (S b + length ps + i) = Some n).
  { intros i n Hi. unfold H, copied. rewrite lookup_app_r by (fold b; lia).
    replace (S b + length ps + i - length h) with (S (length ps + i)) by (fold b; lia). simpl.
    rewrite lookup_app_r; rewrite bcopies_length; [|lia].
    replace (length ps + i - length ps) with i by lia. done. }
  assert (E0 : H !! b = Some (cp h l (match ps with [] => None | _ => Some (S b) end)
              (match ns with [] => None | _ => Some (S b + length ps) end))).
  { unfold H, copied. rewrite lookup_app_r by (fold b; lia). fold b. by rewrite Nat.sub_diag. }
  exists (reverse xs), ys. split_and!.
  - unfold H, copied, b. by rewrite drop_app.
  - done.
  - unfold chain. apply seg_app. split.
    + apply (bcopies_seg H h (Some b) ps). apply Eb.
    + change (b :: ys) with ([b] ++ ys). apply seg_app. split.
      * cbn [seg]. split_and!; [by eapply lookup_lt_Some| | |done].
        -- unfold prev_of. rewrite (field_lookup _ _ _ _ _ E0). simpl. unfold xs. destruct ps as [|p' ps]; [done|].
           cbn [length seq]. rewrite reverse_cons. by rewrite last_ptr_snoc.
        -- unfold next_of. rewrite (field_lookup _ _ _ _ _ E0). unfold ys. simpl. by destruct ns.
      * apply (fcopies_seg H h (Some b) ns). apply Ef.
  - intros x. rewrite elem_of_app, elem_of_cons, elem_of_reverse. unfold xs, ys. rewrite !elem_of_seq. lia.
  - apply Forall2_reverse. by apply (bcopies_payload H h (Some b)).
  - unfold same_node, line_of, kind_of, text_of. by rewrite !(field_lookup _ _ _ _ _ E0).
  - by apply (fcopies_payload H h (Some b)).
Qed.

(** ** Extending the heap *)
Lemma field_app {A} (d : A) f h k x : valid h x -> field d f (h ++ k) (Some x) = field d f h (Some x).
Proof. intros V. apply field_ext. by rewrite lookup_app_l. Qed.
Lemma same_links_app h k x : valid h x -> same_links h (h ++ k) x.
Proof. intros V. split; by apply field_app. Qed.
Lemma field_out {A} (d : A) f (h : heap) x : ~ valid h x -> field d f h (Some x) = d.
Proof. intros V. simpl. by rewrite lookup_ge_None_2 by (unfold valid in V; lia). Qed.

(** New nodes that form one chain of their own keep the invariant. *)
Lemma wf_extend h k ms : wf h -> chain (h ++ k) ms ->
  (forall x, length h <= x < length (h ++ k) <-> x ∈ ms) -> wf (h ++ k).
Proof.
  intros W C M.
  assert (D : forall x, valid h x \/ x ∈ ms \/ ~ valid (h ++ k) x).
  { intros x. destruct (decide (x < length h)); [by left|]. right.
    destruct (decide (x < length (h ++ k))) as [L|L]; [left; apply M; lia|by right]. }
  assert (DJ : forall x, valid h x -> x ∈ ms -> False).
  { intros x V I. apply M in I. unfold valid in V. lia. }
  assert (Nold : forall x, valid h x -> next_of (h ++ k) (Some x) = next_of h (Some x)) by (intros; by apply field_app).
  assert (Pold : forall x, valid h x -> prev_of (h ++ k) (Some x) = prev_of h (Some x)) by (intros; by apply field_app).
  assert (Nout : forall x, ~ valid (h ++ k) x -> next_of (h ++ k) (Some x) = None) by (intros; by apply field_out).
  assert (Pout : forall x, ~ valid (h ++ k) x -> prev_of (h ++ k) (Some x) = None) by (intros; by apply field_out).
  assert (VM : forall x, x ∈ ms -> valid (h ++ k) x) by (intros; by eapply seg_valid).
  assert (VH : forall x, valid h x -> valid (h ++ k) x) by (unfold valid; intros; rewrite app_length; lia).
  assert (NP : forall a b, a ∈ ms -> next_of (h ++ k) (Some a) = Some b -> prev_of (h ++ k) (Some b) = Some a).
  { intros a b (us & vs & ->)%elem_of_list_split E.
    pose proof (seg_next _ _ _ _ _ _ C) as N. rewrite E in N. destruct vs as [|v vs]; [discriminate|].
    simpl in N. injection N as <-. replace (us ++ a :: b :: vs) with ((us ++ [a]) ++ b :: vs) in C by (by rewrite <- app_assoc).
    apply seg_prev in C. by rewrite last_ptr_snoc in C. }
  assert (PN : forall a b, b ∈ ms -> prev_of (h ++ k) (Some b) = Some a -> next_of (h ++ k) (Some a) = Some b).
  { intros a b (us & vs & ->)%elem_of_list_split E.
    pose proof (seg_prev _ _ _ _ _ _ C) as P. rewrite E in P.
    destruct us as [|u us _] using rev_ind; [discriminate|]. rewrite last_ptr_snoc in P. injection P as <-.
    replace ((us ++ [a]) ++ b :: vs) with (us ++ a :: b :: vs) in C by (by rewrite <- app_assoc).
    by apply seg_next in C. }
  constructor.
  - intros a b. split; intros E.
    + destruct (D a) as [V|[V|V]]; [|by apply NP|rewrite Nout in E; done].
      rewrite Nold in E by done. assert (valid h b) by (by eapply wf_next_valid).
      rewrite Pold by done. by apply wf_sym.
    + destruct (D b) as [V|[V|V]]; [|by apply PN|rewrite Pout in E; done].
      rewrite Pold in E by done. assert (valid h a) by (by eapply wf_prev_valid).
      rewrite Nold by done. by apply wf_sym.
  - intros a E. destruct (D a) as [V|[V|V]]; [| |rewrite Nout in E; done].
    + rewrite Nold in E by done. by eapply wf_irrefl.
    + apply elem_of_list_split in V as (us & vs & ->). pose proof (chain_NoDup _ _ C) as ND.
      apply seg_next in C. rewrite E in C. destruct vs as [|v vs]; [discriminate|]. injection C as <-.
      apply NoDup_app in ND as (_ & _ & ND). apply NoDup_cons in ND as [ND _]. apply ND. by left.
  - intros a b E. destruct (D a) as [V|[V|V]]; [| |rewrite Nout in E; done].
    + rewrite Nold in E by done. apply VH. by eapply wf_next_valid.
    + apply VM. by eapply chain_next_in.
  - intros a b E. destruct (D a) as [V|[V|V]]; [| |rewrite Pout in E; done].
    + rewrite Pold in E by done. apply VH. by eapply wf_prev_valid.
    + apply VM. by eapply chain_prev_in.
Qed.

Lemma acyclic_extend h k ms : wf h -> acyclic h -> chain (h ++ k) ms ->
  (forall x, length h <= x < length (h ++ k) <-> x ∈ ms) -> acyclic (h ++ k).
Proof.
  intros W A C M a T.
  destruct (decide (a < length h)) as [V|V].
  - apply (A a). assert (G : forall x y, tc (nxt (h ++ k)) x y -> valid h x -> tc (nxt h) x y).
    { intros x y Hxy. induction Hxy as [x y E|x y z E _ IH]; intros Vx; unfold nxt, next_of in E;
        rewrite field_app in E by done.
      - by apply tc_once.
      - eapply tc_l; [exact E|]. apply IH. by eapply wf_next_valid. }
    by apply G.
  - assert (a ∈ ms) as I.
    { apply M. assert (valid (h ++ k) a) as Vk; [|unfold valid in *; lia].
      destruct (decide (a < length (h ++ k))) as [|NV]; [done|].
      assert (exists b, next_of (h ++ k) (Some a) = Some b) as [b Eb] by (inversion T; subst; eauto).
      unfold next_of in Eb. by rewrite field_out in Eb. }
    exact (nseg_no_cycle _ _ _ _ (seg_nseg _ _ _ _ C) I T).
Qed.

(** ** Copy *)
Lemma copy_spec h l xs ys : chain h (xs ++ l :: ys) ->
  exists h' c xs' ys',
    copy h (Some l) true = Ok (h', Some c) /\
    h `prefix_of` h' /\ length h' = length h + length (xs ++ l :: ys) /\
    chain h' (xs' ++ c :: ys') /\
    (forall x, length h <= x < length h' <-> x ∈ xs' ++ c :: ys') /\
    Forall2 (fun a c => same_node h a h' c) xs xs' /\ same_node h l h' c /\
    Forall2 (fun a c => same_node h a h' c) ys ys' /\ c = length h.
Proof.
  intros C. pose proof (chain_NoDup _ _ C) as ND.
  assert (V : forall x, x ∈ xs ++ l :: ys -> valid h x) by (intros; by eapply seg_valid).
  pose proof (NoDup_bound _ (length h) ND V) as B. rewrite app_length in B. simpl in B.
  apply seg_app in C as [C1 C2]. destruct C2 as (Vl & Pl & Nl & C2).
  pose proof (seg_pseg _ _ _ _ C1) as P. pose proof (seg_nseg _ _ _ _ C2) as N.
  assert (E : copy h (Some l) true = Ok (copied h (reverse xs) l ys, Some (length h))).
  { unfold copy. apply deep_copy_spec; [done|by rewrite Pl|by rewrite Nl| |rewrite reverse_length; lia|lia].
    intros x. rewrite elem_of_app, elem_of_reverse. intros [Hx|Hx]; apply V; apply elem_of_app; [by left|right; by right]. }
  destruct (copied_spec h (reverse xs) l ys) as (xs' & ys' & E1 & E2 & E3 & E4 & E5 & E6 & E7).
  exists (copied h (reverse xs) l ys), (length h), xs', ys'. split_and!; try done.
  - by eexists.
  - rewrite E2, app_length, reverse_length. simpl. lia.
  - by rewrite reverse_involutive in E5.
Qed.

Lemma copy_inv h l h' r : wf h -> valid h l -> copy h (Some l) true = Ok (h', r) ->
  exists xs ys, chain h (xs ++ l :: ys).
Proof.
  intros W V D. unfold copy in D. cbn [deep_copy] in D. unfold alloc in D.
  set (c := mkNode _ _ _ _ _) in D.
  assert (Ep : prev_of (h ++ [c]) (Some l) = prev_of h (Some l)) by (by apply field_app).
  rewrite Ep in D.
  destruct (deep_copy _ _ (prev_of h (Some l)) _ _) as [[h1 p1]| |] eqn:D1; try discriminate D.
  pose proof D1 as D1'.
  apply (deep_copy_bwd_inv h W) in D1' as (ps & P & VP).
  2:{ by eexists. } 2:{ destruct (prev_of h (Some l)) eqn:E; [|done]. by eapply wf_prev_valid. }
  simpl in D.
  assert (BP : length ps <= length h).
  { apply path_pseg in P. apply (NoDup_bound ps (length h) (path_NoDup _ _ _ P) VP). }
  rewrite (deep_copy_bwd h ps) in D1; [|done|done|].
  2:{ intros x Hx. rewrite app_length. pose proof (VP x Hx) as Vx. split; [by rewrite lookup_app_l|unfold valid in Vx; lia]. }
  injection D1 as <- <-.
  assert (En : next_of ((h ++ [c]) ++ bcopies h (length (h ++ [c])) (Some (length h)) ps) (Some l) = next_of h (Some l)).
  { rewrite <- app_assoc. by apply field_app. }
  rewrite En in D.
  destruct (deep_copy _ _ (next_of h (Some l)) _ _) as [[h2 p2]| |] eqn:D2; try discriminate D.
  apply (deep_copy_fwd_inv h W) in D2 as (ns & N & VN).
  2:{ rewrite <- app_assoc. by eexists. } 2:{ destruct (next_of h (Some l)) eqn:E; [|done]. by eapply wf_next_valid. }
  exists (reverse ps), ns.
  assert (PS : forall ps p, pseg h p ps None -> (forall x, x ∈ ps -> valid h x) -> forall m, p = prev_of h (Some m) -> valid h m ->
     seg h None (reverse ps ++ [m]) (next_of h (Some m))).
  { clear -W. induction ps as [|a ps IH]; intros p P VP m Em Vm.
    - simpl in P. subst p. simpl. rewrite <- Em. done.
    - destruct P as [-> P]. rewrite reverse_cons. apply seg_app. split.
      + simpl hd_ptr. assert (E : next_of h (Some a) = Some m) by (by apply wf_sym).
        rewrite <- E. eapply (IH _ P); [|done|apply VP; by left]. intros x Hx. apply VP. by right.
      + rewrite last_ptr_snoc. simpl. done. }
  replace (reverse ps ++ l :: ns) with ((reverse ps ++ [l]) ++ ns) by (by rewrite <- app_assoc).
  apply seg_app. rewrite last_ptr_snoc. split.
  - rewrite <- (nseg_hd _ _ _ _ N). by eapply PS.
  - apply nseg_seg; [done|done| |by rewrite <- (nseg_hd _ _ _ _ N)]. destruct ns as [|n ns]; [done|]. destruct N as [N _]. by apply wf_sym.
Qed.
