(** Refining a scope whose first tokens are known. *)
From Verif Require Export ResetSpec.

Lemma step_iterM {X} fuel (body : loc -> X -> M (X * bool)) l x (Q : X * ptr -> st -> Prop) s : 0 < fuel ->
  wp (body l x) (fun xb s' => if snd xb then wp (iterM (pred fuel) body (next_of (s_heap s') (Some l)) (fst xb)) Q s' else Q (fst xb, Some l) s') s ->
  wp (iterM fuel body (Some l) x) Q s.
Proof.
  intros L H. destruct fuel as [|f]; [lia|]. unfold wp, iterM in *. cbn [loop fst snd pred] in *.
  destruct (body l x s) as [[s' [x' b]]| |]; [|done..]. cbn [res_bind fst snd] in *. by destruct b.
Qed.
(** One step of a walk without hooks. *)
Lemma wb_run {X} skip (sw : loc -> X -> M (act * X)) l x (Q : wl X * bool -> st -> Prop) s :
  wp (sw l x) (fun ax s' => match fst ax with Stop => Q (mkWl false None (snd ax), false) s' | Cont => Q (mkWl false None (snd ax), true) s'
    | Jump p => Q (mkWl (ptr_eqb p None) p (snd ax), true) s' end) s ->
  wp (walk_body skip [] sw l (mkWl false None x)) Q s.
Proof.
  intros H. unfold walk_body. apply wp_bind. unfold wp at 1, handle_hook. cbn [fold_left w_skip w_jump w_x].
  change (negb (ptr_eqb None None) && negb (ptr_eqb (Some l) None)) with false. change (negb (ptr_eqb None None) && skip) with false. cbv iota.
  apply wp_bind. eapply wp_mono; [exact H|]. intros ax s'. cbv beta. by destruct (fst ax).
Qed.
Lemma wb_skip {X} skip (sw : loc -> X -> M (act * X)) l q x (Q : wl X * bool -> st -> Prop) s : l <> q ->
  Q (mkWl false (Some q) x, true) s -> wp (walk_body skip [] sw l (mkWl false (Some q) x)) Q s.
Proof.
  intros N H. unfold walk_body. apply wp_bind. unfold wp at 1, handle_hook. cbn [fold_left w_skip w_jump w_x].
  unfold ptr_eqb. rewrite (bool_decide_eq_false_2 (Some q = None)) by done. rewrite (bool_decide_eq_false_2 (Some l = Some q)) by congruence. cbn [negb andb]. done.
Qed.
Lemma wb_target {X} (sw : loc -> X -> M (act * X)) l x (Q : wl X * bool -> st -> Prop) s :
  wp (sw l x) (fun ax s' => match fst ax with Stop => Q (mkWl false None (snd ax), false) s' | Cont => Q (mkWl false None (snd ax), true) s'
    | Jump p => Q (mkWl (ptr_eqb p None) p (snd ax), true) s' end) s ->
  wp (walk_body false [] sw l (mkWl false (Some l) x)) Q s.
Proof.
  intros H. unfold walk_body. apply wp_bind. unfold wp at 1, handle_hook. cbn [fold_left w_skip w_jump w_x].
  unfold ptr_eqb. rewrite (bool_decide_eq_false_2 (Some l = None)) by done. rewrite (bool_decide_eq_true_2 (Some l = Some l)) by done. cbn [negb andb].
  apply wp_bind. eapply wp_mono; [exact H|]. intros ax s'. cbv beta. by destruct (fst ax).
Qed.

Definition receivers : list kind := [KMethodReceiverName; KMethodReceiverType].

Definition vpc_step (h : heap) (l : loc) (c : Z) : Z * bool :=
  let k := kind_of h (Some l) in
  if mem_kind k [KComma; KParenR] then (c, false)
  else if mem_kind k [KSpace; KTab; KComment; KNewLine] then (c, true)
  else (c + 1, true)%Z.
Lemma vpc_eq head : valid_param_count head = (r <- scanM head vpc_step 0%Z ; ret (fst r)).
Proof. reflexivity. Qed.
Ltac kred := repeat match goal with
  | |- context [kind_eqb ?a ?b] => let v := eval vm_compute in (kind_eqb a b) in match v with true => idtac | false => idtac end; change (kind_eqb a b) with v
  | |- context [mem_kind ?a ?b] => let v := eval vm_compute in (mem_kind a b) in match v with true => idtac | false => idtac end; change (mem_kind a b) with v
  | |- context [contain (cset_new ?a) ?b] => let v := eval vm_compute in (contain (cset_new a) b) in match v with true => idtac | false => idtac end; change (contain (cset_new a) b) with v
  end; cbn [negb andb orb].
Section prefix.
Context (h0 : heap) (ls : list loc) (W0 : SpecNode.wf h0) (C0 : chain h0 ls).
Let ND : NoDup ls := c_nd h0 ls C0.
Let Hval := c_val h0 ls C0.
Let Hout := c_out h0 ls W0 C0.
Notation from := (from ls).
Notation base := (base h0 ls).
Notation N i := (length ls - i).
Notation fuel_of n := (6 * n + 8).

(** The first nodes have the kinds [ks], their old texts, and are linked. *)
Definition pre (ks : list kind) (h : heap) : Prop :=
  forall i l k, ls !! i = Some l -> ks !! i = Some k ->
    kind_of h (Some l) = k /\ text_of h (Some l) = text_of h0 (Some l) /\ (S i < length ks -> next_of h (Some l) = ls !! S i).
Definition no_receivers (h : heap) : Prop := forall l, l ∈ ls -> kind_of h (Some l) ∉ receivers.
Definition Kp (okr : bool) (ks : list kind) (h : heap) : Prop := pre ks h /\ (okr = false -> no_receivers h).

Lemma pre_kind ks h i l k : pre ks h -> ls !! i = Some l -> ks !! i = Some k -> kind_of h (Some l) = k.
Proof. intros P E1 E2. by destruct (P i l k E1 E2). Qed.
Lemma pre_next ks h i l : pre ks h -> ls !! i = Some l -> S i < length ks -> next_of h (Some l) = ls !! S i.
Proof. intros P E L. destruct (lookup_lt_is_Some_2 ks i ltac:(lia)) as [k Ek]. destruct (P i l k E Ek) as (_ & _ & H). by apply H. Qed.

Lemma out_prefix i l lo p : ls !! i = Some l -> i < lo -> from lo p -> p <> Some l.
Proof. intros E L F ->. destruct F as (j & Lj & Ej). assert (i = j) by (by eapply at_inj). lia. Qed.
Lemma Kp_k okr ks h p k : base h -> Kp okr ks h -> from (length ks) p -> k ∈ okk okr -> Kp okr ks (set_kind h p k).
Proof.
  intros B [P R] F Ok. destruct p as [a|]; [|done].
  assert (Va : valid h a) by (exact (base_live h0 ls Hval h _ (Some a) B F)).
  split.
  - intros i l k' El Ek. destruct (P i l k' El Ek) as (P1 & P2 & P3). pose proof (lookup_lt_Some _ _ _ Ek) as Li.
    pose proof (out_prefix i l _ _ El Li F) as D. assert (a <> l) by congruence.
    split; [|split].
    + rewrite kind_set_kind by done. by rewrite decide_False by congruence.
    + rewrite <- P2. apply text_set_kind.
    + intros L. rewrite (proj1 (links_set_kind h (Some a) k l)). by apply P3.
  - intros -> l Hl. rewrite kind_set_kind by done. case_decide; [|by apply R].
    apply mem_kind_false. cbn [okk] in Ok. rewrite !elem_of_cons in Ok. destruct Ok as [->|[->|[->|[->|[]%elem_of_nil]]]]; reflexivity.
Qed.
Lemma Kp_a okr ks (h : heap) n i rest b h' b' : base h -> Kp okr ks h -> ls !! i = Some n -> length ks <= i -> Forall (from i) rest ->
  finish_combine KParamType (Some n :: rest) (mkSt h b) = Ok (mkSt h' b', tt) -> Kp okr ks h'.
Proof.
  intros B [P R] En Li F E.
  destruct (finish_base h0 ls ND Hval Hout h n i rest KParamType b B En F) as (h2 & E2 & B2 & Pay & Lk & Kn); [apply mem_kind_true; reflexivity|].
  rewrite E in E2. injection E2 as <- ->. split.
  - intros j l k El Ek. destruct (P j l k El Ek) as (P1 & P2 & P3). pose proof (lookup_lt_Some _ _ _ Ek) as Lj.
    assert (l <> n). { intros ->. assert (i = j) by (by eapply at_inj). lia. }
    destruct (Pay l H) as (_ & Q2 & Q3). split; [by rewrite Q2|]. split; [by rewrite Q3|]. intros L.
    specialize (P3 L). destruct (ls !! S j) as [y|] eqn:Ey.
    + rewrite (Lk l y); [done|..|done]; intros q Eq; [assert (q = j) by (by eapply at_inj)|assert (q = S j) by (by eapply at_inj)]; lia.
    + exfalso. apply lookup_ge_None in Ey. apply lookup_lt_Some in En. lia.
  - intros -> l Hl. destruct (decide (l = n)) as [->|D]; [rewrite Kn; apply mem_kind_false; reflexivity|].
    destruct (Pay l D) as (_ & -> & _). by apply R.
Qed.
Lemma Kp_m okr ks (h : heap) p vs r h' b b' : base h -> Kp okr ks h -> from (length ks) p -> nseg h p vs r ->
  finish_combine KParamType (map Some (filter (fun l => kind_of h (Some l) <> KComment) vs)) (mkSt h b) = Ok (mkSt h' b', tt) -> Kp okr ks h'.
Proof.
  intros B HK F Sg E.
  destruct (filter_sorted h0 ls (fun l => kind_of h (Some l) <> KComment) h vs (length ks) p r B F Sg) as [E2|(v & vs' & j & E2 & Ej & Lj & Fj)].
  - rewrite E2 in E. cbn in E. by injection E as <- <-.
  - rewrite E2 in E. cbn [map] in E. eapply (Kp_a okr ks h v j); [done|done|done|done| |exact E]. apply Forall_fmap. exact Fj.
Qed.

Lemma blockp okr ks f : let lo := length ks in let K := Kp okr ks in PR h0 ls okr lo K any f /\ PP h0 ls okr lo K any f /\ FRp h0 ls lo K any f /\ FR h0 ls okr lo K any f /\
  GF h0 ls lo K any f /\ PF h0 ls lo K any f /\ SR h0 ls lo K any f.
Proof.
  cbv zeta. apply (ResetTop.block h0 ls ND Hval Hout okr (length ks) (Kp okr ks)).
  - intros h p k B HK F Ok _. by apply Kp_k.
  - intros h p vs r h' b b' B HK F Sg _ _ E _. by eapply Kp_m.
Qed.

(** What a general function does once it is past the known nodes. *)
Lemma gf_tail okr ks f fuel rk p w (s : st) : base (s_heap s) -> Kp okr ks (s_heap s) -> from (length ks) p ->
  6 * N (length ks) + 5 <= f -> N (length ks) <= fuel ->
  wp (iterM fuel (walk_body false [] (gf_sw f rk [])) p w)
    (fun r s' => base (s_heap s') /\ Kp okr ks (s_heap s') /\ forall l, snd r = Some l -> contain rk (kind_of (s_heap s') (Some l)) = true) s.
Proof.
  intros B HK F Lf Lfu. destruct (blockp okr ks f) as (IPR & _ & _ & _ & _ & _ & ISR).
  eapply wp_mono.
  - apply (wp_walk_from h0 ls ND (length ks) (Kp okr ks) any (fun _ => True) false (length ks) p [] (gf_sw f rk []) w fuel s
      (fun l s' => contain rk (kind_of (s_heap s') (Some l)) = true)); try done.
    intros l j x s' El Lj I' _ _. eapply wp_mono.
    + eapply (gf_sw_ok h0 ls Hval okr (length ks) (Kp okr ks) any); try done; [intros; by apply Kp_k|lia].
    + intros ax s'' [? ?]. done.
  - intros r s' ((B' & K' & _) & _ & H). done.
Qed.
(** A walk that has jumped to a node at which it stops changes nothing more. *)
Lemma jump_tail {X} (sw : loc -> X -> M (act * X)) (j : ptr) (x : X) i p fuel (s : st) : base (s_heap s) -> from i p -> N i <= fuel ->
  (forall l, j = Some l -> wp (sw l x) (fun ax s' => fst ax = Stop /\ s' = s) s) ->
  wp (iterM fuel (walk_body false [] sw) p (mkWl (ptr_eqb j None) j x)) (fun r s' => s' = s) s.
Proof.
  intros B F Lf H. eapply (wp_iterM h0 ls (fun _ w s' => s' = s /\ w = mkWl (ptr_eqb j None) j x) _ i); [| | |exact (Nat.le_refl i)|done|done|done].
  - intros q w s' [-> _]. done.
  - intros w s' [-> _]. done.
  - intros l k w s' El Lk [-> ->]. destruct j as [t|].
    + change (ptr_eqb (Some t) None) with false. destruct (decide (l = t)) as [->|D].
      * apply wb_target. eapply wp_mono; [by apply H|]. intros ax s' [-> ->]. done.
      * by apply wb_skip.
    + unfold walk_body. apply wp_bind. unfold wp at 1, handle_hook. cbn [fold_left w_skip]. change (ptr_eqb None None) with true. cbv iota. by apply wp_ret.
Qed.
Lemma set_kind_pre okr ks i l k (Q : unit -> st -> Prop) s : base (s_heap s) -> Kp okr ks (s_heap s) -> ls !! i = Some l -> i < length ks -> k ∈ okk okr ->
  (forall s', base (s_heap s') -> Kp okr (<[i:=k]> ks) (s_heap s') -> Q tt s') -> wp (do_set_kind (Some l) k) Q s.
Proof.
  intros B [P R] El Li Ok H. unfold wp, do_set_kind. apply H; cbn [s_heap].
  - eapply base_set_kind; [exact Hval|exact B|by apply from_at|by eapply okk_refined].
  - assert (Vl : valid (s_heap s) l) by (eapply base_valid; [exact Hval|exact B|by eapply elem_of_list_lookup_2]).
    split.
    + intros j x k' Ex Ek. rewrite kind_set_kind by done. rewrite text_set_kind, (proj1 (links_set_kind _ _ _ _)), insert_length.
      destruct (lookup_lt_is_Some_2 ks j) as [k2 Ek2]. { apply lookup_lt_Some in Ek. by rewrite insert_length in Ek. }
      destruct (P j x k2 Ex Ek2) as (P1 & P2 & P3). split; [|done].
      case_decide as D.
      * subst x. assert (j = i) as -> by (by eapply at_inj). rewrite list_lookup_insert in Ek by done. by injection Ek.
      * rewrite list_lookup_insert_ne in Ek by (intros ->; congruence). congruence.
    + intros -> x Hx. rewrite kind_set_kind by done. case_decide; [|by apply R].
      apply mem_kind_false. cbn [okk] in Ok. rewrite !elem_of_cons in Ok. destruct Ok as [->|[->|[->|[->|[]%elem_of_nil]]]]; reflexivity.
Qed.

(** ** Scanning known nodes *)
Lemma scan_pre {A} (fn : loc -> A -> A * bool) ks h : pre ks h -> forall n fuel i l a x, ls !! i = Some l -> i + n < length ks -> n < fuel ->
  snd (scan_list fn (take (S n) (drop i ls)) a) = Some x ->
  loop fuel (fun _ l => next_of h (Some l)) (fun l a => Ok (fn l a)) (Some l) a = Ok (scan_list fn (take (S n) (drop i ls)) a).
Proof.
  intros P. induction n as [|n IH]; intros fuel i l a x El Li Lf; rewrite (drop_S _ _ _ El); cbn [take scan_list];
    (destruct fuel as [|f]; [lia|]); cbn [loop]; destruct (fn l a) as [a' [|]] eqn:Ef; try done.
  intros Hs. rewrite (pre_next ks h i l P El) by lia. destruct (ls !! S i) as [l'|] eqn:El'.
  - apply (IH f (S i) l' a' x); [done|lia|lia|done].
  - rewrite (drop_ge ls (S i)) in Hs by (by apply lookup_ge_None). done.
Qed.

(** ** Immediately called functions *)
Lemma occurrences_app k xs ys : occurrences k (xs ++ ys) = occurrences k xs + occurrences k ys.
Proof. unfold occurrences. by rewrite filter_app, app_length. Qed.
Definition counters (ks : list kind) : Z * Z * Z :=
  (Z.of_nat (occurrences KParenL ks) - Z.of_nat (occurrences KParenR ks), Z.of_nat (occurrences KCurlyL ks) - Z.of_nat (occurrences KCurlyR ks),
   Z.of_nat (occurrences KSquareL ks) - Z.of_nat (occurrences KSquareR ks))%Z.
Lemma occurrences_one x k : occurrences x [k] = if kind_eqb k x then 1 else 0.
Proof. unfold occurrences, kind_eqb. rewrite filter_cons, filter_nil. case_decide; [by rewrite bool_decide_eq_true_2|by rewrite bool_decide_eq_false_2]. Qed.
Lemma count_step_spec ks k : count_step k (counters ks) = counters (ks ++ [k]).
Proof.
  unfold counters. rewrite !occurrences_app, !occurrences_one. unfold count_step.
  destruct (kind_eqb k KParenL) eqn:E1; [apply kind_eqb_true in E1 as ->; kred|destruct (kind_eqb k KCurlyL) eqn:E2; [apply kind_eqb_true in E2 as ->; kred|
    destruct (kind_eqb k KSquareL) eqn:E3; [apply kind_eqb_true in E3 as ->; kred|destruct (kind_eqb k KParenR) eqn:E4; [apply kind_eqb_true in E4 as ->; kred|
    destruct (kind_eqb k KCurlyR) eqn:E5; [apply kind_eqb_true in E5 as ->; kred|destruct (kind_eqb k KSquareR) eqn:E6]]]]];
  apply pair_equal_spec; (split; [apply pair_equal_spec; split|]); lia.
Qed.
Lemma counters_zero ks : balanced ks <-> counters ks = (0, 0, 0)%Z.
Proof. unfold balanced, counters. rewrite !pair_equal_spec. lia. Qed.
Lemma find_end ks k : find_decide [KNewLine; KCurlyR] opt_outside k (counters ks) = false <-> balanced ks /\ (k = KNewLine \/ k = KCurlyR).
Proof.
  rewrite counters_zero. destruct (counters ks) as [[p b] q]. unfold find_decide. cbn [o_inP o_inC o_inS o_outP o_outC o_outS opt_outside o_rev andb].
  rewrite contain_new. destruct (p =? 0)%Z eqn:E1; cbn [negb]; [|rewrite !pair_equal_spec; split; [done|intros [[[? ?] ?] _]; lia]].
  destruct (b =? 0)%Z eqn:E2; cbn [negb]; [|rewrite !pair_equal_spec; split; [done|intros [[[? ?] ?] _]; lia]].
  destruct (q =? 0)%Z eqn:E3; cbn [negb]; [|rewrite !pair_equal_spec; split; [done|intros [[[? ?] ?] _]; lia]].
  rewrite Z.eqb_eq in E1, E2, E3. subst. case_bool_decide as D.
  - split; [|done]. intros _. split; [done|]. by rewrite elem_of_cons, elem_of_list_singleton in D.
  - split; [done|]. intros [_ H]. destruct D. by rewrite elem_of_cons, elem_of_list_singleton.
Qed.
Lemma is_temp_called i p fuel (s : st) xs : base (s_heap s) -> from i p -> N i <= fuel -> nseg (s_heap s) p xs None ->
  wp (is_temporary_func fuel p) (fun b s' => s' = s /\ (b = true -> called_at_once (map (fun l => kind_of (s_heap s) (Some l)) xs))) s.
Proof.
  intros B F Lf Sg. set (kd := fun l => kind_of (s_heap s) (Some l)). unfold is_temporary_func, find_next. apply wp_bind, wp_bind.
  eapply (wp_iterM h0 ls (fun q c s' => s' = s /\ exists us vs, xs = us ++ vs /\ nseg (s_heap s) q vs None /\ c = counters (map kd us) /\
     forall us' x vs', us = us' ++ x :: vs' -> kd x = KNewLine \/ kd x = KCurlyR -> ~ balanced (map kd us' ++ [kd x])) _ i).
  - intros q w s' [-> _]. done.
  - intros c s' [-> _]. apply wp_ret. cbn [snd]. apply wp_bind, wp_get_kind. change (kind_of (s_heap s) None) with KNone. kred. by apply wp_ret.
  - intros l j c s' El Lj (-> & us & vs & Ex & Sv & Ec & Hn). apply wp_bind. unfold wp at 1, handle_hook. cbn [fold_left].
    apply wp_bind, wp_get_kind, wp_ret. cbn [fst snd]. rewrite Ec, count_step_spec.
    destruct vs as [|v vs]; [done|]. destruct Sv as [[= <-] Sv]. change (kind_of (s_heap s) (Some l)) with (kd l).
    assert (Em : map kd us ++ [kd l] = map kd (us ++ [l])) by (by rewrite map_app).
    destruct (find_decide _ _ _ _) eqn:Ed.
    + split; [done|]. split; [done|]. exists (us ++ [l]), vs. split; [by rewrite <- app_assoc|]. split; [done|]. split; [by rewrite Em|].
      intros us' x vs' Eu Hx Hb. destruct vs' as [|y vs' _] using rev_ind.
      * apply app_inj_tail in Eu as [-> ->]. assert (find_decide [KNewLine; KCurlyR] opt_outside (kd x) (counters (map kd us' ++ [kd x])) = false) by (by apply find_end). congruence.
      * rewrite app_comm_cons, app_assoc in Eu. apply app_inj_tail in Eu as [Eu ->]. by apply (Hn us' x vs').
    + apply find_end in Ed as [Hb Hk]. apply wp_ret. cbn [snd]. apply wp_bind, wp_get_kind. change (kind_of (s_heap s) (Some l)) with (kd l).
      destruct Hk as [Hk|Hk]; rewrite Hk in *; kred; [by apply wp_ret|]. apply wp_bind, wp_get_next, wp_bind, wp_get_kind, wp_ret. split; [done|].
      intros Hp. apply kind_eqb_true in Hp. destruct vs as [|y vs]; cbn [NodeChain.nseg] in Sv; [rewrite Sv in Hp; done|]. destruct Sv as [Ey Sv]. rewrite Ey in Hp.
      exists (map kd us), (map kd vs). rewrite Ex, map_app. cbn [map]. rewrite Hk. unfold kd at 2. rewrite Hp. split; [done|]. split; [done|].
      intros us' x vs' Eu Hx. apply map_eq_app in Eu as (u1 & u2 & -> & <- & Eu). destruct u2 as [|z u2]; [done|]. cbn [map] in Eu. injection Eu as <- <-.
      by apply (Hn u1 z u2).
  - exact (Nat.le_refl i).
  - done.
  - done.
  - split; [done|]. exists [], xs. split; [done|]. split; [done|]. split; [done|]. intros us' x vs' E. by destruct us'.
Qed.

(** ** func Name *)
Section func.
Context (okr : bool) (x0 x1 x2 : loc) (tl : list loc) (Els : ls = x0 :: x1 :: x2 :: tl).
Let E0 : ls !! 0 = Some x0. Proof. by rewrite Els. Qed.
Let E1 : ls !! 1 = Some x1. Proof. by rewrite Els. Qed.
Let E2 : ls !! 2 = Some x2. Proof. by rewrite Els. Qed.
Let ks0 := [KFunc; KSpace; KRaw].
Let ks1 := [KFunc; KSpace; KFuncName].
Definition gf_post (ks : list kind) (r : ptr) (s : st) : Prop :=
  base (s_heap s) /\ Kp okr ks (s_heap s) /\ forall l, r = Some l -> kind_of (s_heap s) (Some l) = KNewLine.

Lemma gf_walk f (s : st) : base (s_heap s) -> Kp okr ks0 (s_heap s) -> 6 * N 1 <= f ->
  wp (walk false f [] (gf_sw f (cset_new [KNewLine]) []) (Some x1) (false, false)) (gf_post ks1) s.
Proof.
  intros B HK Lf. assert (Ll : 3 <= length ls) by (rewrite Els; cbn [length]; lia).
  unfold walk. apply wp_bind. apply step_iterM; [lia|]. apply wb_run. unfold gf_sw at 1.
  apply wp_bind, wp_get_kind. rewrite (pre_kind ks0 _ 1 x1 KSpace (proj1 HK) E1 eq_refl). kred. apply wp_ret. cbn [fst snd].
  rewrite (pre_next ks0 _ 1 x1 (proj1 HK) E1), E2 by (cbn; lia).
  apply step_iterM; [lia|]. apply wb_run. unfold gf_sw at 1. apply wp_bind, wp_get_kind.
  rewrite (pre_kind ks0 _ 2 x2 KRaw (proj1 HK) E2 eq_refl). kred. apply wp_bind.
  apply (set_kind_pre okr ks0 2); [done|done|done|cbn; lia|apply okk_base, mem_kind_true; reflexivity|].
  intros s' B' HK'. apply wp_ret. cbn [fst snd]. eapply wp_mono.
  - apply (gf_tail okr ks1); [done|exact HK'| |change (length ks1) with 3; lia|change (length ks1) with 3; lia].
    eapply base_next; [exact B'|]. by apply from_at.
  - intros r s2 (B2 & K2 & H2). apply wp_ret. split; [done|]. split; [done|]. intros l El. specialize (H2 l El).
    rewrite contain_new in H2. apply bool_decide_eq_true in H2. by apply elem_of_list_singleton in H2.
Qed.
Lemma gf_func f p (s : st) : p = Some x0 \/ p = Some x1 -> base (s_heap s) -> Kp okr ks0 (s_heap s) -> 6 * N 1 < f ->
  wp (general_func f p [KNewLine] []) (gf_post ks1) s.
Proof.
  intros Hp B HK Lf. destruct f as [|f]; [lia|]. rewrite general_func_eq. apply wp_bind, wp_get_kind, wp_bind.
  destruct Hp as [-> | ->].
  - rewrite (pre_kind ks0 _ 0 x0 KFunc (proj1 HK) E0 eq_refl). kred. apply wp_bind. unfold wp at 1, handle_hook. cbn [fold_left].
    apply wp_get_next. rewrite (pre_next ks0 _ 0 x0 (proj1 HK) E0), E1 by (cbn; lia). apply gf_walk; [done|done|lia].
  - rewrite (pre_kind ks0 _ 1 x1 KSpace (proj1 HK) E1 eq_refl). kred. apply wp_ret. apply gf_walk; [done|done|lia].
Qed.
Lemma fr_func f (s : st) : base (s_heap s) -> Kp okr ks0 (s_heap s) -> 8 * length ls <= f ->
  wp (func_run f ff_l (Some x0) []) (fun _ s' => base (s_heap s') /\ Kp okr ks1 (s_heap s')) s.
Proof.
  intros B HK Lf. assert (Ll : 3 <= length ls) by (rewrite Els; cbn [length]; lia).
  destruct f as [|f]; [lia|]. rewrite func_run_eq. cbn [ff_param ff_iface ff_lead ff_l]. apply wp_bind.
  eapply wp_mono; [apply (is_temp_ok h0 ls 0); [done|by apply from_at|lia]|]. intros tmp s' ->. cbv beta.
  destruct tmp.
  { eapply wp_mono; [apply gf_func; [by left|done|done|lia]|]. intros r s' (? & ? & _). done. }
  apply wp_bind, wp_get_kind, wp_bind. unfold wp at 1, handle_hook. cbn [fold_left]. apply wp_bind, wp_get_next.
  rewrite (pre_kind ks0 _ 0 x0 KFunc (proj1 HK) E0 eq_refl). kred. rewrite (pre_next ks0 _ 0 x0 (proj1 HK) E0), E1 by (cbn; lia).
  unfold fr_main, walk. apply wp_bind. cbn [ff_notmethod ff_l].
  apply step_iterM; [lia|]. apply wb_run. unfold fr_sw at 1. apply wp_bind, wp_get_kind.
  rewrite (pre_kind ks0 _ 1 x1 KSpace (proj1 HK) E1 eq_refl). cbn [fst]. kred. apply wp_ret. cbn [fst snd].
  rewrite (pre_next ks0 _ 1 x1 (proj1 HK) E1), E2 by (cbn; lia).
  apply step_iterM; [lia|]. apply wb_run. unfold fr_sw at 1. apply wp_bind, wp_get_kind.
  rewrite (pre_kind ks0 _ 2 x2 KRaw (proj1 HK) E2 eq_refl). cbn [fst snd]. kred. apply wp_bind.
  eapply wp_mono; [apply gf_func; [by right|done|done|lia]|]. intros r s' (B' & HK' & Hr). cbv beta. apply wp_ret. cbn [fst snd].
  eapply wp_mono.
  - apply (jump_tail _ r _ 3); [done| |lia|].
    + eapply base_next; [exact B'|by apply from_at].
    + intros l ->. unfold fr_sw. apply wp_bind, wp_get_kind. rewrite (Hr l eq_refl). cbn [fst snd]. kred. by apply wp_ret.
  - intros r' s2 ->. by apply wp_ret.
Qed.
End func.

(** ** func (r T) Name *)
Section mth.
Context (x0 x1 x2 x3 x4 x5 x6 x7 x8 : loc) (tl : list loc) (Els : ls = x0 :: x1 :: x2 :: x3 :: x4 :: x5 :: x6 :: x7 :: x8 :: tl).
Let E0 : ls !! 0 = Some x0. Proof. by rewrite Els. Qed.
Let E1 : ls !! 1 = Some x1. Proof. by rewrite Els. Qed.
Let E2 : ls !! 2 = Some x2. Proof. by rewrite Els. Qed.
Let E3 : ls !! 3 = Some x3. Proof. by rewrite Els. Qed.
Let E4 : ls !! 4 = Some x4. Proof. by rewrite Els. Qed.
Let E5 : ls !! 5 = Some x5. Proof. by rewrite Els. Qed.
Let E6 : ls !! 6 = Some x6. Proof. by rewrite Els. Qed.
Let E7 : ls !! 7 = Some x7. Proof. by rewrite Els. Qed.
Let E8 : ls !! 8 = Some x8. Proof. by rewrite Els. Qed.
Let Ll : 9 <= length ls. Proof. rewrite Els. cbn [length]. lia. Qed.
Let kA := [KFunc; KSpace; KParenL; KRaw; KSpace; KRaw; KParenR; KSpace; KRaw].
Let kB := [KFunc; KSpace; KParenL; KMethodReceiverName; KSpace; KMethodReceiverType; KParenR; KSpace; KRaw].
Let kC := [KFunc; KSpace; KParenL; KMethodReceiverName; KSpace; KMethodReceiverType; KParenR; KSpace; KFuncName].
Let ne i j a b : ls !! i = Some a -> ls !! j = Some b -> i <> j -> a <> b.
Proof. intros Ea Eb D ->. apply D. by eapply at_inj. Qed.
Lemma mth_recv f (s : st) : base (s_heap s) -> Kp true kA (s_heap s) -> length ls + 2 <= f ->
  wp (paren_run f false true (Some x2) []) (fun r s' => r = Some x6 /\ base (s_heap s') /\ Kp true kB (s_heap s')) s.
Proof.
  pose proof Ll as L9. intros B HK Lf. destruct f as [|f]; [lia|]. rewrite paren_run_eq. apply wp_bind, wp_get_kind.
  rewrite (pre_kind kA _ 2 x2 KParenL (proj1 HK) E2 eq_refl). kred. unfold walk. apply wp_bind. apply step_iterM; [lia|]. apply wb_run. unfold pr_sw at 1. apply wp_bind, wp_get_kind.
  rewrite (pre_kind kA _ 2 x2 KParenL (proj1 HK) E2 eq_refl). kred. apply wp_ret. cbn [fst snd]. rewrite (pre_next kA _ 2 x2 (proj1 HK) E2), E3 by (cbn; lia). 
  apply step_iterM; [lia|]. apply wb_run. unfold pr_sw at 1. apply wp_bind, wp_get_kind.
  rewrite (pre_kind kA _ 3 x3 KRaw (proj1 HK) E3 eq_refl). kred. apply wp_bind.
  apply (wp_mono _ (fun r s' => r = Some x6 /\ base (s_heap s') /\ Kp true kB (s_heap s'))).
  { destruct f as [|f]; [lia|]. rewrite paren_param_eq. apply wp_bind.
    assert (Ec : valid_param_count (Some x3) s = Ok (s, 2%Z)).
    { rewrite vpc_eq. unfold bind, scanM, scan_next. pose proof (b_len _ _ _ B) as Lb.
      assert (Lh : length ls <= length (s_heap s)) by (apply (NoDup_bound ls (length (s_heap s)) ND); intros z Hz; eapply base_valid; [exact Hval|exact B|done]).
      set (fn := vpc_step (s_heap s)).
      change (fun (l : loc) (a : Z) => Ok (vpc_step (s_heap s) l a)) with (fun (l : loc) (a : Z) => Ok (fn l a)).
      assert (Es : scan_list fn (take (S 3) (drop 3 ls)) 0%Z = (2%Z, Some x6)).
      { rewrite Els. cbn [drop take scan_list]. unfold fn, vpc_step.
        rewrite (pre_kind kA _ 3 x3 KRaw (proj1 HK) E3 eq_refl). kred. cbn [scan_list].
        rewrite (pre_kind kA _ 4 x4 KSpace (proj1 HK) E4 eq_refl). kred. cbn [scan_list].
        rewrite (pre_kind kA _ 5 x5 KRaw (proj1 HK) E5 eq_refl). kred. cbn [scan_list].
        rewrite (pre_kind kA _ 6 x6 KParenR (proj1 HK) E6 eq_refl). kred. cbn [scan_list].
        done. }
      rewrite (scan_pre fn kA (s_heap s) (proj1 HK) 3 _ 3 x3 0%Z x6); [|exact E3|cbn; lia|lia|by rewrite Es]. rewrite Es. done. }
    unfold wp at 1. rewrite Ec. clear Ec. unfold walk. apply wp_bind.
    apply step_iterM; [lia|]. apply wb_run. unfold pp_sw at 1. apply wp_bind, wp_get_kind. rewrite (pre_kind kA _ 3 x3 KRaw (proj1 HK) E3 eq_refl). kred.
    change (2 =? 1)%Z with false. cbv iota.
    apply wp_bind. apply (set_kind_pre true kA 3); [done|exact HK|done|cbn; lia|apply mem_kind_true; reflexivity|].
    clear s B HK. intros s B HK. cbn [insert list_insert] in HK. apply wp_ret. cbn [fst snd].
    change (Kp true [KFunc; KSpace; KParenL; KMethodReceiverName; KSpace; KRaw; KParenR; KSpace; KRaw] (s_heap s)) in HK. rewrite (pre_next ([KFunc; KSpace; KParenL; KMethodReceiverName; KSpace; KRaw; KParenR; KSpace; KRaw]) _ 3 x3 (proj1 HK) E3), E4 by (cbn; lia). 
    apply step_iterM; [lia|]. apply wb_run. unfold pp_sw at 1. apply wp_bind, wp_get_kind. rewrite (pre_kind ([KFunc; KSpace; KParenL; KMethodReceiverName; KSpace; KRaw; KParenR; KSpace; KRaw]) _ 4 x4 KSpace (proj1 HK) E4 eq_refl). kred.
    apply wp_ret. cbn [fst snd]. rewrite (pre_next ([KFunc; KSpace; KParenL; KMethodReceiverName; KSpace; KRaw; KParenR; KSpace; KRaw]) _ 4 x4 (proj1 HK) E4), E5 by (cbn; lia). 
    apply step_iterM; [lia|]. apply wb_run. unfold pp_sw at 1. apply wp_bind, wp_get_kind. rewrite (pre_kind ([KFunc; KSpace; KParenL; KMethodReceiverName; KSpace; KRaw; KParenR; KSpace; KRaw]) _ 5 x5 KRaw (proj1 HK) E5 eq_refl). kred.
    change (2 =? 1)%Z with false. cbv iota.
    apply wp_bind. apply (set_kind_pre true ([KFunc; KSpace; KParenL; KMethodReceiverName; KSpace; KRaw; KParenR; KSpace; KRaw]) 5); [done|exact HK|done|cbn; lia|apply mem_kind_true; reflexivity|].
    clear s B HK. intros s B HK. cbn [insert list_insert] in HK. apply wp_ret. cbn [fst snd].
    change (Kp true [KFunc; KSpace; KParenL; KMethodReceiverName; KSpace; KMethodReceiverType; KParenR; KSpace; KRaw] (s_heap s)) in HK. rewrite (pre_next ([KFunc; KSpace; KParenL; KMethodReceiverName; KSpace; KMethodReceiverType; KParenR; KSpace; KRaw]) _ 5 x5 (proj1 HK) E5), E6 by (cbn; lia). 
    apply step_iterM; [lia|]. apply wb_run. unfold pp_sw at 1. apply wp_bind, wp_get_kind. rewrite (pre_kind ([KFunc; KSpace; KParenL; KMethodReceiverName; KSpace; KMethodReceiverType; KParenR; KSpace; KRaw]) _ 6 x6 KParenR (proj1 HK) E6 eq_refl). kred. apply wp_ret. cbn [fst snd]. apply wp_ret. done. }
  clear s B HK. intros r s (-> & B & HK). apply wp_ret. cbn [fst snd]. change (ptr_eqb (Some x6) None) with false. rewrite (pre_next kB _ 3 x3 (proj1 HK) E3), E4 by (cbn; lia). 
  apply step_iterM; [lia|]. apply wb_skip; [by apply (ne 4 6)|]. cbn [fst snd]. rewrite (pre_next kB _ 4 x4 (proj1 HK) E4), E5 by (cbn; lia). 
  apply step_iterM; [lia|]. apply wb_skip; [by apply (ne 5 6)|]. cbn [fst snd]. rewrite (pre_next kB _ 5 x5 (proj1 HK) E5), E6 by (cbn; lia). 
  apply step_iterM; [lia|]. apply wb_target. unfold pr_sw at 1. apply wp_bind, wp_get_kind. rewrite (pre_kind kB _ 6 x6 KParenR (proj1 HK) E6 eq_refl). kred. apply wp_ret. cbn [fst snd]. by apply wp_ret.
Qed.
Lemma mth_again f (s : st) : base (s_heap s) -> Kp true kB (s_heap s) -> length ls + 2 <= f ->
  wp (paren_run f false false (Some x2) []) (fun r s' => r = Some x6 /\ base (s_heap s') /\ Kp true kB (s_heap s')) s.
Proof.
  pose proof Ll as L9. intros B HK Lf. destruct f as [|f]; [lia|]. rewrite paren_run_eq. apply wp_bind, wp_get_kind.
  rewrite (pre_kind kB _ 2 x2 KParenL (proj1 HK) E2 eq_refl). kred. unfold walk. apply wp_bind. apply step_iterM; [lia|]. apply wb_run. unfold pr_sw at 1. apply wp_bind, wp_get_kind.
  rewrite (pre_kind kB _ 2 x2 KParenL (proj1 HK) E2 eq_refl). kred. apply wp_ret. cbn [fst snd]. rewrite (pre_next kB _ 2 x2 (proj1 HK) E2), E3 by (cbn; lia). 
  apply step_iterM; [lia|]. apply wb_run. unfold pr_sw at 1. apply wp_bind, wp_get_kind.
  rewrite (pre_kind kB _ 3 x3 KMethodReceiverName (proj1 HK) E3 eq_refl). kred. apply wp_bind.
  apply (wp_mono _ (fun r s' => r = Some x6 /\ base (s_heap s') /\ Kp true kB (s_heap s'))).
  { destruct f as [|f]; [lia|]. rewrite paren_param_eq. apply wp_bind.
    assert (Ec : valid_param_count (Some x3) s = Ok (s, 2%Z)).
    { rewrite vpc_eq. unfold bind, scanM, scan_next. pose proof (b_len _ _ _ B) as Lb.
      assert (Lh : length ls <= length (s_heap s)) by (apply (NoDup_bound ls (length (s_heap s)) ND); intros z Hz; eapply base_valid; [exact Hval|exact B|done]).
      set (fn := vpc_step (s_heap s)).
      change (fun (l : loc) (a : Z) => Ok (vpc_step (s_heap s) l a)) with (fun (l : loc) (a : Z) => Ok (fn l a)).
      assert (Es : scan_list fn (take (S 3) (drop 3 ls)) 0%Z = (2%Z, Some x6)).
      { rewrite Els. cbn [drop take scan_list]. unfold fn, vpc_step.
        rewrite (pre_kind kB _ 3 x3 KMethodReceiverName (proj1 HK) E3 eq_refl). kred. cbn [scan_list].
        rewrite (pre_kind kB _ 4 x4 KSpace (proj1 HK) E4 eq_refl). kred. cbn [scan_list].
        rewrite (pre_kind kB _ 5 x5 KMethodReceiverType (proj1 HK) E5 eq_refl). kred. cbn [scan_list].
        rewrite (pre_kind kB _ 6 x6 KParenR (proj1 HK) E6 eq_refl). kred. cbn [scan_list].
        done. }
      rewrite (scan_pre fn kB (s_heap s) (proj1 HK) 3 _ 3 x3 0%Z x6); [|exact E3|cbn; lia|lia|by rewrite Es]. rewrite Es. done. }
    unfold wp at 1. rewrite Ec. clear Ec. unfold walk. apply wp_bind.
    apply step_iterM; [lia|]. apply wb_run. unfold pp_sw at 1. apply wp_bind, wp_get_kind. rewrite (pre_kind kB _ 3 x3 KMethodReceiverName (proj1 HK) E3 eq_refl). kred.
    apply wp_ret. cbn [fst snd]. rewrite (pre_next kB _ 3 x3 (proj1 HK) E3), E4 by (cbn; lia). 
    apply step_iterM; [lia|]. apply wb_run. unfold pp_sw at 1. apply wp_bind, wp_get_kind. rewrite (pre_kind kB _ 4 x4 KSpace (proj1 HK) E4 eq_refl). kred.
    apply wp_ret. cbn [fst snd]. rewrite (pre_next kB _ 4 x4 (proj1 HK) E4), E5 by (cbn; lia). 
    apply step_iterM; [lia|]. apply wb_run. unfold pp_sw at 1. apply wp_bind, wp_get_kind. rewrite (pre_kind kB _ 5 x5 KMethodReceiverType (proj1 HK) E5 eq_refl). kred.
    apply wp_ret. cbn [fst snd]. rewrite (pre_next kB _ 5 x5 (proj1 HK) E5), E6 by (cbn; lia). 
    apply step_iterM; [lia|]. apply wb_run. unfold pp_sw at 1. apply wp_bind, wp_get_kind. rewrite (pre_kind kB _ 6 x6 KParenR (proj1 HK) E6 eq_refl). kred. apply wp_ret. cbn [fst snd]. apply wp_ret. done. }
  clear s B HK. intros r s (-> & B & HK). apply wp_ret. cbn [fst snd]. change (ptr_eqb (Some x6) None) with false. rewrite (pre_next kB _ 3 x3 (proj1 HK) E3), E4 by (cbn; lia). 
  apply step_iterM; [lia|]. apply wb_skip; [by apply (ne 4 6)|]. cbn [fst snd]. rewrite (pre_next kB _ 4 x4 (proj1 HK) E4), E5 by (cbn; lia). 
  apply step_iterM; [lia|]. apply wb_skip; [by apply (ne 5 6)|]. cbn [fst snd]. rewrite (pre_next kB _ 5 x5 (proj1 HK) E5), E6 by (cbn; lia). 
  apply step_iterM; [lia|]. apply wb_target. unfold pr_sw at 1. apply wp_bind, wp_get_kind. rewrite (pre_kind kB _ 6 x6 KParenR (proj1 HK) E6 eq_refl). kred. apply wp_ret. cbn [fst snd]. by apply wp_ret.
Qed.
Lemma mth_gf f (s : st) : base (s_heap s) -> Kp true kB (s_heap s) -> 6 * N 1 < f ->
  wp (general_func f (Some x1) [KNewLine] []) (gf_post true kC) s.
Proof.
  pose proof Ll as L9. intros B HK Lf. destruct f as [|f]; [lia|]. rewrite general_func_eq. apply wp_bind, wp_get_kind, wp_bind.
  rewrite (pre_kind kB _ 1 x1 KSpace (proj1 HK) E1 eq_refl). kred. apply wp_ret. unfold walk. apply wp_bind.
  apply step_iterM; [lia|]. apply wb_run. unfold gf_sw at 1. apply wp_bind, wp_get_kind. rewrite (pre_kind kB _ 1 x1 KSpace (proj1 HK) E1 eq_refl). kred. apply wp_ret. cbn [fst snd]. rewrite (pre_next kB _ 1 x1 (proj1 HK) E1), E2 by (cbn; lia). 
  apply step_iterM; [lia|]. apply wb_run. unfold gf_sw at 1. apply wp_bind, wp_get_kind. rewrite (pre_kind kB _ 2 x2 KParenL (proj1 HK) E2 eq_refl). kred. apply wp_bind.
  eapply wp_mono; [apply mth_again; [done|done|lia]|]. clear s B HK. intros r s (-> & B & HK). cbv beta. apply wp_ret. cbn [fst snd].
  change (ptr_eqb (Some x6) None) with false. rewrite (pre_next kB _ 2 x2 (proj1 HK) E2), E3 by (cbn; lia). 
  apply step_iterM; [lia|]. apply wb_skip; [by apply (ne 3 6)|]. cbn [fst snd]. rewrite (pre_next kB _ 3 x3 (proj1 HK) E3), E4 by (cbn; lia). 
  apply step_iterM; [lia|]. apply wb_skip; [by apply (ne 4 6)|]. cbn [fst snd]. rewrite (pre_next kB _ 4 x4 (proj1 HK) E4), E5 by (cbn; lia). 
  apply step_iterM; [lia|]. apply wb_skip; [by apply (ne 5 6)|]. cbn [fst snd]. rewrite (pre_next kB _ 5 x5 (proj1 HK) E5), E6 by (cbn; lia). 
  apply step_iterM; [lia|]. apply wb_target. unfold gf_sw at 1. apply wp_bind, wp_get_kind. rewrite (pre_kind kB _ 6 x6 KParenR (proj1 HK) E6 eq_refl). kred. apply wp_ret. cbn [fst snd]. rewrite (pre_next kB _ 6 x6 (proj1 HK) E6), E7 by (cbn; lia). 
  apply step_iterM; [lia|]. apply wb_run. unfold gf_sw at 1. apply wp_bind, wp_get_kind. rewrite (pre_kind kB _ 7 x7 KSpace (proj1 HK) E7 eq_refl). kred. apply wp_ret. cbn [fst snd]. rewrite (pre_next kB _ 7 x7 (proj1 HK) E7), E8 by (cbn; lia). 
  apply step_iterM; [lia|]. apply wb_run. unfold gf_sw at 1. apply wp_bind, wp_get_kind. rewrite (pre_kind kB _ 8 x8 KRaw (proj1 HK) E8 eq_refl). kred. apply wp_bind.
  apply (set_kind_pre true kB 8); [done|done|done|cbn; lia|apply okk_base, mem_kind_true; reflexivity|].
  clear s B HK. intros s B HK. apply wp_ret. cbn [fst snd]. eapply wp_mono.
  - apply (gf_tail true kC); [done|exact HK| |change (length kC) with 9; lia|change (length kC) with 9; lia].
    eapply base_next; [exact B|]. by apply from_at.
  - intros r s2 (B2 & K2 & H2). apply wp_ret. split; [done|]. split; [done|]. intros l El. specialize (H2 l El).
    rewrite contain_new in H2. apply bool_decide_eq_true in H2. by apply elem_of_list_singleton in H2.
Qed.
Lemma fr_mth f (s : st) xs : base (s_heap s) -> Kp true kA (s_heap s) -> 8 * length ls <= f -> nseg (s_heap s) (Some x0) xs None ->
  ~ called_at_once (map (fun l => kind_of (s_heap s) (Some l)) xs) ->
  wp (func_run f ff_l (Some x0) []) (fun _ s' => base (s_heap s') /\ Kp true kC (s_heap s')) s.
Proof.
  pose proof Ll as L9. intros B HK Lf Sg Nc. destruct f as [|f]; [lia|]. rewrite func_run_eq. cbn [ff_param ff_iface ff_lead ff_l]. apply wp_bind.
  eapply wp_mono; [apply (is_temp_called 0 _ _ _ xs); [done|by apply from_at|lia|done]|]. intros tmp s' [-> Ht]. cbv beta.
  destruct tmp. { destruct Nc. by apply Ht. } clear Ht Nc Sg.
  apply wp_bind, wp_get_kind, wp_bind. unfold wp at 1, handle_hook. cbn [fold_left]. apply wp_bind, wp_get_next.
  rewrite (pre_kind kA _ 0 x0 KFunc (proj1 HK) E0 eq_refl). kred. rewrite (pre_next kA _ 0 x0 (proj1 HK) E0), E1 by (cbn; lia). 
  unfold fr_main, walk. apply wp_bind. cbn [ff_notmethod ff_l].
  apply step_iterM; [lia|]. apply wb_run. unfold fr_sw at 1. apply wp_bind, wp_get_kind.
  rewrite (pre_kind kA _ 1 x1 KSpace (proj1 HK) E1 eq_refl). cbn [fst]. kred. apply wp_ret. cbn [fst snd]. rewrite (pre_next kA _ 1 x1 (proj1 HK) E1), E2 by (cbn; lia). 
  apply step_iterM; [lia|]. apply wb_run. unfold fr_sw at 1. apply wp_bind, wp_get_kind.
  rewrite (pre_kind kA _ 2 x2 KParenL (proj1 HK) E2 eq_refl). cbn [fst snd]. kred. cbn [fst snd]. kred. apply wp_bind.
  eapply wp_mono; [apply mth_recv; [done|done|lia]|]. clear s B HK. intros r s (-> & B & HK). cbv beta. apply wp_ret. cbn [fst snd].
  change (ptr_eqb (Some x6) None) with false. rewrite (pre_next kB _ 2 x2 (proj1 HK) E2), E3 by (cbn; lia). 
  apply step_iterM; [lia|]. apply wb_skip; [by apply (ne 3 6)|]. cbn [fst snd]. rewrite (pre_next kB _ 3 x3 (proj1 HK) E3), E4 by (cbn; lia). 
  apply step_iterM; [lia|]. apply wb_skip; [by apply (ne 4 6)|]. cbn [fst snd]. rewrite (pre_next kB _ 4 x4 (proj1 HK) E4), E5 by (cbn; lia). 
  apply step_iterM; [lia|]. apply wb_skip; [by apply (ne 5 6)|]. cbn [fst snd]. rewrite (pre_next kB _ 5 x5 (proj1 HK) E5), E6 by (cbn; lia). 
  apply step_iterM; [lia|]. apply wb_target. unfold fr_sw at 1. apply wp_bind, wp_get_kind. rewrite (pre_kind kB _ 6 x6 KParenR (proj1 HK) E6 eq_refl). cbn [fst snd]. kred. cbn [fst snd]. kred. apply wp_bind.
  eapply wp_mono; [apply mth_gf; [done|done|lia]|]. clear s B HK. intros r s (B & HK & Hr). cbv beta. apply wp_ret. cbn [fst snd].
  eapply wp_mono.
  - apply (jump_tail _ r _ 7); [done| |lia|].
    + eapply base_next; [exact B|by apply from_at].
    + intros l ->. unfold fr_sw. apply wp_bind, wp_get_kind. rewrite (Hr l eq_refl). cbn [fst snd]. kred. cbn [fst snd]. kred. by apply wp_ret.
  - intros r' s2 ->. by apply wp_ret.
Qed.
End mth.

(** ** func (T) Name *)
Section mtu.
Context (x0 x1 x2 x3 x4 x5 x6 : loc) (tl : list loc) (Els : ls = x0 :: x1 :: x2 :: x3 :: x4 :: x5 :: x6 :: tl).
Let E0 : ls !! 0 = Some x0. Proof. by rewrite Els. Qed.
Let E1 : ls !! 1 = Some x1. Proof. by rewrite Els. Qed.
Let E2 : ls !! 2 = Some x2. Proof. by rewrite Els. Qed.
Let E3 : ls !! 3 = Some x3. Proof. by rewrite Els. Qed.
Let E4 : ls !! 4 = Some x4. Proof. by rewrite Els. Qed.
Let E5 : ls !! 5 = Some x5. Proof. by rewrite Els. Qed.
Let E6 : ls !! 6 = Some x6. Proof. by rewrite Els. Qed.
Let Ll : 7 <= length ls. Proof. rewrite Els. cbn [length]. lia. Qed.
Let kA := [KFunc; KSpace; KParenL; KRaw; KParenR; KSpace; KRaw].
Let kB := [KFunc; KSpace; KParenL; KMethodReceiverType; KParenR; KSpace; KRaw].
Let kC := [KFunc; KSpace; KParenL; KMethodReceiverType; KParenR; KSpace; KFuncName].
Let ne i j a b : ls !! i = Some a -> ls !! j = Some b -> i <> j -> a <> b.
Proof. intros Ea Eb D ->. apply D. by eapply at_inj. Qed.
Lemma mtu_recv f (s : st) : base (s_heap s) -> Kp true kA (s_heap s) -> length ls + 2 <= f ->
  wp (paren_run f false true (Some x2) []) (fun r s' => r = Some x4 /\ base (s_heap s') /\ Kp true kB (s_heap s')) s.
Proof.
  pose proof Ll as L9. intros B HK Lf. destruct f as [|f]; [lia|]. rewrite paren_run_eq. apply wp_bind, wp_get_kind.
  rewrite (pre_kind kA _ 2 x2 KParenL (proj1 HK) E2 eq_refl). kred. unfold walk. apply wp_bind. apply step_iterM; [lia|]. apply wb_run. unfold pr_sw at 1. apply wp_bind, wp_get_kind.
  rewrite (pre_kind kA _ 2 x2 KParenL (proj1 HK) E2 eq_refl). kred. apply wp_ret. cbn [fst snd]. rewrite (pre_next kA _ 2 x2 (proj1 HK) E2), E3 by (cbn; lia). 
  apply step_iterM; [lia|]. apply wb_run. unfold pr_sw at 1. apply wp_bind, wp_get_kind.
  rewrite (pre_kind kA _ 3 x3 KRaw (proj1 HK) E3 eq_refl). kred. apply wp_bind.
  apply (wp_mono _ (fun r s' => r = Some x4 /\ base (s_heap s') /\ Kp true kB (s_heap s'))).
  { destruct f as [|f]; [lia|]. rewrite paren_param_eq. apply wp_bind.
    assert (Ec : valid_param_count (Some x3) s = Ok (s, 1%Z)).
    { rewrite vpc_eq. unfold bind, scanM, scan_next. pose proof (b_len _ _ _ B) as Lb.
      assert (Lh : length ls <= length (s_heap s)) by (apply (NoDup_bound ls (length (s_heap s)) ND); intros z Hz; eapply base_valid; [exact Hval|exact B|done]).
      set (fn := vpc_step (s_heap s)).
      change (fun (l : loc) (a : Z) => Ok (vpc_step (s_heap s) l a)) with (fun (l : loc) (a : Z) => Ok (fn l a)).
      assert (Es : scan_list fn (take (S 1) (drop 3 ls)) 0%Z = (1%Z, Some x4)).
      { rewrite Els. cbn [drop take scan_list]. unfold fn, vpc_step.
        rewrite (pre_kind kA _ 3 x3 KRaw (proj1 HK) E3 eq_refl). kred. cbn [scan_list].
        rewrite (pre_kind kA _ 4 x4 KParenR (proj1 HK) E4 eq_refl). kred. cbn [scan_list].
        done. }
      rewrite (scan_pre fn kA (s_heap s) (proj1 HK) 1 _ 3 x3 0%Z x4); [|exact E3|cbn; lia|lia|by rewrite Es]. rewrite Es. done. }
    unfold wp at 1. rewrite Ec. clear Ec. unfold walk. apply wp_bind.
    apply step_iterM; [lia|]. apply wb_run. unfold pp_sw at 1. apply wp_bind, wp_get_kind. rewrite (pre_kind kA _ 3 x3 KRaw (proj1 HK) E3 eq_refl). kred.
    change (1 =? 1)%Z with true. cbv iota.
    apply wp_bind. apply (set_kind_pre true kA 3); [done|exact HK|done|cbn; lia|apply mem_kind_true; reflexivity|].
    clear s B HK. intros s B HK. cbn [insert list_insert] in HK. apply wp_ret. cbn [fst snd].
    change (Kp true [KFunc; KSpace; KParenL; KMethodReceiverType; KParenR; KSpace; KRaw] (s_heap s)) in HK. rewrite (pre_next ([KFunc; KSpace; KParenL; KMethodReceiverType; KParenR; KSpace; KRaw]) _ 3 x3 (proj1 HK) E3), E4 by (cbn; lia). 
    apply step_iterM; [lia|]. apply wb_run. unfold pp_sw at 1. apply wp_bind, wp_get_kind. rewrite (pre_kind ([KFunc; KSpace; KParenL; KMethodReceiverType; KParenR; KSpace; KRaw]) _ 4 x4 KParenR (proj1 HK) E4 eq_refl). kred. apply wp_ret. cbn [fst snd]. apply wp_ret. done. }
  clear s B HK. intros r s (-> & B & HK). apply wp_ret. cbn [fst snd]. change (ptr_eqb (Some x4) None) with false. rewrite (pre_next kB _ 3 x3 (proj1 HK) E3), E4 by (cbn; lia). 
  apply step_iterM; [lia|]. apply wb_target. unfold pr_sw at 1. apply wp_bind, wp_get_kind. rewrite (pre_kind kB _ 4 x4 KParenR (proj1 HK) E4 eq_refl). kred. apply wp_ret. cbn [fst snd]. by apply wp_ret.
Qed.
Lemma mtu_again f (s : st) : base (s_heap s) -> Kp true kB (s_heap s) -> length ls + 2 <= f ->
  wp (paren_run f false false (Some x2) []) (fun r s' => r = Some x4 /\ base (s_heap s') /\ Kp true kB (s_heap s')) s.
Proof.
  pose proof Ll as L9. intros B HK Lf. destruct f as [|f]; [lia|]. rewrite paren_run_eq. apply wp_bind, wp_get_kind.
  rewrite (pre_kind kB _ 2 x2 KParenL (proj1 HK) E2 eq_refl). kred. unfold walk. apply wp_bind. apply step_iterM; [lia|]. apply wb_run. unfold pr_sw at 1. apply wp_bind, wp_get_kind.
  rewrite (pre_kind kB _ 2 x2 KParenL (proj1 HK) E2 eq_refl). kred. apply wp_ret. cbn [fst snd]. rewrite (pre_next kB _ 2 x2 (proj1 HK) E2), E3 by (cbn; lia). 
  apply step_iterM; [lia|]. apply wb_run. unfold pr_sw at 1. apply wp_bind, wp_get_kind.
  rewrite (pre_kind kB _ 3 x3 KMethodReceiverType (proj1 HK) E3 eq_refl). kred. apply wp_bind.
  apply (wp_mono _ (fun r s' => r = Some x4 /\ base (s_heap s') /\ Kp true kB (s_heap s'))).
  { destruct f as [|f]; [lia|]. rewrite paren_param_eq. apply wp_bind.
    assert (Ec : valid_param_count (Some x3) s = Ok (s, 1%Z)).
    { rewrite vpc_eq. unfold bind, scanM, scan_next. pose proof (b_len _ _ _ B) as Lb.
      assert (Lh : length ls <= length (s_heap s)) by (apply (NoDup_bound ls (length (s_heap s)) ND); intros z Hz; eapply base_valid; [exact Hval|exact B|done]).
      set (fn := vpc_step (s_heap s)).
      change (fun (l : loc) (a : Z) => Ok (vpc_step (s_heap s) l a)) with (fun (l : loc) (a : Z) => Ok (fn l a)).
      assert (Es : scan_list fn (take (S 1) (drop 3 ls)) 0%Z = (1%Z, Some x4)).
      { rewrite Els. cbn [drop take scan_list]. unfold fn, vpc_step.
        rewrite (pre_kind kB _ 3 x3 KMethodReceiverType (proj1 HK) E3 eq_refl). kred. cbn [scan_list].
        rewrite (pre_kind kB _ 4 x4 KParenR (proj1 HK) E4 eq_refl). kred. cbn [scan_list].
        done. }
      rewrite (scan_pre fn kB (s_heap s) (proj1 HK) 1 _ 3 x3 0%Z x4); [|exact E3|cbn; lia|lia|by rewrite Es]. rewrite Es. done. }
    unfold wp at 1. rewrite Ec. clear Ec. unfold walk. apply wp_bind.
    apply step_iterM; [lia|]. apply wb_run. unfold pp_sw at 1. apply wp_bind, wp_get_kind. rewrite (pre_kind kB _ 3 x3 KMethodReceiverType (proj1 HK) E3 eq_refl). kred.
    apply wp_ret. cbn [fst snd]. rewrite (pre_next kB _ 3 x3 (proj1 HK) E3), E4 by (cbn; lia). 
    apply step_iterM; [lia|]. apply wb_run. unfold pp_sw at 1. apply wp_bind, wp_get_kind. rewrite (pre_kind kB _ 4 x4 KParenR (proj1 HK) E4 eq_refl). kred. apply wp_ret. cbn [fst snd]. apply wp_ret. done. }
  clear s B HK. intros r s (-> & B & HK). apply wp_ret. cbn [fst snd]. change (ptr_eqb (Some x4) None) with false. rewrite (pre_next kB _ 3 x3 (proj1 HK) E3), E4 by (cbn; lia). 
  apply step_iterM; [lia|]. apply wb_target. unfold pr_sw at 1. apply wp_bind, wp_get_kind. rewrite (pre_kind kB _ 4 x4 KParenR (proj1 HK) E4 eq_refl). kred. apply wp_ret. cbn [fst snd]. by apply wp_ret.
Qed.
Lemma mtu_gf f (s : st) : base (s_heap s) -> Kp true kB (s_heap s) -> 6 * N 1 < f ->
  wp (general_func f (Some x1) [KNewLine] []) (gf_post true kC) s.
Proof.
  pose proof Ll as L9. intros B HK Lf. destruct f as [|f]; [lia|]. rewrite general_func_eq. apply wp_bind, wp_get_kind, wp_bind.
  rewrite (pre_kind kB _ 1 x1 KSpace (proj1 HK) E1 eq_refl). kred. apply wp_ret. unfold walk. apply wp_bind.
  apply step_iterM; [lia|]. apply wb_run. unfold gf_sw at 1. apply wp_bind, wp_get_kind. rewrite (pre_kind kB _ 1 x1 KSpace (proj1 HK) E1 eq_refl). kred. apply wp_ret. cbn [fst snd]. rewrite (pre_next kB _ 1 x1 (proj1 HK) E1), E2 by (cbn; lia). 
  apply step_iterM; [lia|]. apply wb_run. unfold gf_sw at 1. apply wp_bind, wp_get_kind. rewrite (pre_kind kB _ 2 x2 KParenL (proj1 HK) E2 eq_refl). kred. apply wp_bind.
  eapply wp_mono; [apply mtu_again; [done|done|lia]|]. clear s B HK. intros r s (-> & B & HK). cbv beta. apply wp_ret. cbn [fst snd].
  change (ptr_eqb (Some x4) None) with false. rewrite (pre_next kB _ 2 x2 (proj1 HK) E2), E3 by (cbn; lia). 
  apply step_iterM; [lia|]. apply wb_skip; [by apply (ne 3 4)|]. cbn [fst snd]. rewrite (pre_next kB _ 3 x3 (proj1 HK) E3), E4 by (cbn; lia). 
  apply step_iterM; [lia|]. apply wb_target. unfold gf_sw at 1. apply wp_bind, wp_get_kind. rewrite (pre_kind kB _ 4 x4 KParenR (proj1 HK) E4 eq_refl). kred. apply wp_ret. cbn [fst snd]. rewrite (pre_next kB _ 4 x4 (proj1 HK) E4), E5 by (cbn; lia). 
  apply step_iterM; [lia|]. apply wb_run. unfold gf_sw at 1. apply wp_bind, wp_get_kind. rewrite (pre_kind kB _ 5 x5 KSpace (proj1 HK) E5 eq_refl). kred. apply wp_ret. cbn [fst snd]. rewrite (pre_next kB _ 5 x5 (proj1 HK) E5), E6 by (cbn; lia). 
  apply step_iterM; [lia|]. apply wb_run. unfold gf_sw at 1. apply wp_bind, wp_get_kind. rewrite (pre_kind kB _ 6 x6 KRaw (proj1 HK) E6 eq_refl). kred. apply wp_bind.
  apply (set_kind_pre true kB 6); [done|done|done|cbn; lia|apply okk_base, mem_kind_true; reflexivity|].
  clear s B HK. intros s B HK. apply wp_ret. cbn [fst snd]. eapply wp_mono.
  - apply (gf_tail true kC); [done|exact HK| |change (length kC) with 7; lia|change (length kC) with 7; lia].
    eapply base_next; [exact B|]. by apply from_at.
  - intros r s2 (B2 & K2 & H2). apply wp_ret. split; [done|]. split; [done|]. intros l El. specialize (H2 l El).
    rewrite contain_new in H2. apply bool_decide_eq_true in H2. by apply elem_of_list_singleton in H2.
Qed.
Lemma fr_mtu f (s : st) xs : base (s_heap s) -> Kp true kA (s_heap s) -> 8 * length ls <= f -> nseg (s_heap s) (Some x0) xs None ->
  ~ called_at_once (map (fun l => kind_of (s_heap s) (Some l)) xs) ->
  wp (func_run f ff_l (Some x0) []) (fun _ s' => base (s_heap s') /\ Kp true kC (s_heap s')) s.
Proof.
  pose proof Ll as L9. intros B HK Lf Sg Nc. destruct f as [|f]; [lia|]. rewrite func_run_eq. cbn [ff_param ff_iface ff_lead ff_l]. apply wp_bind.
  eapply wp_mono; [apply (is_temp_called 0 _ _ _ xs); [done|by apply from_at|lia|done]|]. intros tmp s' [-> Ht]. cbv beta.
  destruct tmp. { destruct Nc. by apply Ht. } clear Ht Nc Sg.
  apply wp_bind, wp_get_kind, wp_bind. unfold wp at 1, handle_hook. cbn [fold_left]. apply wp_bind, wp_get_next.
  rewrite (pre_kind kA _ 0 x0 KFunc (proj1 HK) E0 eq_refl). kred. rewrite (pre_next kA _ 0 x0 (proj1 HK) E0), E1 by (cbn; lia). 
  unfold fr_main, walk. apply wp_bind. cbn [ff_notmethod ff_l].
  apply step_iterM; [lia|]. apply wb_run. unfold fr_sw at 1. apply wp_bind, wp_get_kind.
  rewrite (pre_kind kA _ 1 x1 KSpace (proj1 HK) E1 eq_refl). cbn [fst]. kred. apply wp_ret. cbn [fst snd]. rewrite (pre_next kA _ 1 x1 (proj1 HK) E1), E2 by (cbn; lia). 
  apply step_iterM; [lia|]. apply wb_run. unfold fr_sw at 1. apply wp_bind, wp_get_kind.
  rewrite (pre_kind kA _ 2 x2 KParenL (proj1 HK) E2 eq_refl). cbn [fst snd]. kred. cbn [fst snd]. kred. apply wp_bind.
  eapply wp_mono; [apply mtu_recv; [done|done|lia]|]. clear s B HK. intros r s (-> & B & HK). cbv beta. apply wp_ret. cbn [fst snd].
  change (ptr_eqb (Some x4) None) with false. rewrite (pre_next kB _ 2 x2 (proj1 HK) E2), E3 by (cbn; lia). 
  apply step_iterM; [lia|]. apply wb_skip; [by apply (ne 3 4)|]. cbn [fst snd]. rewrite (pre_next kB _ 3 x3 (proj1 HK) E3), E4 by (cbn; lia). 
  apply step_iterM; [lia|]. apply wb_target. unfold fr_sw at 1. apply wp_bind, wp_get_kind. rewrite (pre_kind kB _ 4 x4 KParenR (proj1 HK) E4 eq_refl). cbn [fst snd]. kred. cbn [fst snd]. kred. apply wp_bind.
  eapply wp_mono; [apply mtu_gf; [done|done|lia]|]. clear s B HK. intros r s (B & HK & Hr). cbv beta. apply wp_ret. cbn [fst snd].
  eapply wp_mono.
  - apply (jump_tail _ r _ 5); [done| |lia|].
    + eapply base_next; [exact B|by apply from_at].
    + intros l ->. unfold fr_sw. apply wp_bind, wp_get_kind. rewrite (Hr l eq_refl). cbn [fst snd]. kred. cbn [fst snd]. kred. by apply wp_ret.
  - intros r' s2 ->. by apply wp_ret.
Qed.
End mtu.

(** ** type Name *)
Lemma paramp okr ks fuel : param_spec h0 ls (length ks) (Kp okr ks) fuel.
Proof.
  apply (param_ok h0 ls ND Hval Hout okr (length ks) (Kp okr ks)).
  - intros h p k B HK F Ok _. by apply Kp_k.
  - intros h p vs r h' b b' B HK F Sg _ _ E _. by eapply Kp_m.
  - intros h n i rest b h' b' B HK En Li F E _. by eapply Kp_a.
Qed.
Lemma ty_tail okr ks fuel fuel' p w (s : st) : base (s_heap s) -> Kp okr ks (s_heap s) -> from (length ks) p ->
  6 * N (length ks) + 8 <= fuel -> N (length ks) <= fuel' ->
  wp (iterM fuel' (walk_body true [] (ty_sw fuel [])) p w) (fun r s' => base (s_heap s') /\ Kp okr ks (s_heap s')) s.
Proof.
  intros B HK F Lf Lfu. eapply wp_mono.
  - apply (wp_walk_from h0 ls ND (length ks) (Kp okr ks) any (fun _ => True) true (length ks) p [] (ty_sw fuel []) w fuel' s
      (fun l s' => True)); try done.
    intros l j x s' El Lj I' _ _. eapply wp_mono.
    + eapply (ty_sw_ok h0 ls ND Hval Hout okr (length ks) (Kp okr ks)); [..|exact El|].
      * intros h q k Bh HKh Fh Ok _. by apply Kp_k.
      * intros h q vs r h' b b' Bh HKh Fh Sg _ _ E _. by eapply Kp_m.
      * apply (paramp okr).
      * done.
      * done.
      * lia.
    + intros ax s'' [? _]. done.
  - intros r s' ((B' & K' & _) & _). done.
Qed.
Section type.
Context (okr : bool).
Section name.
Context (x0 x1 x2 : loc) (tl : list loc) (Els : ls = x0 :: x1 :: x2 :: tl).
Let E0 : ls !! 0 = Some x0. Proof. by rewrite Els. Qed.
Let E1 : ls !! 1 = Some x1. Proof. by rewrite Els. Qed.
Let E2 : ls !! 2 = Some x2. Proof. by rewrite Els. Qed.
Let Ll : 3 <= length ls. Proof. rewrite Els. cbn [length]. lia. Qed.
Let ks0 := [KType; KSpace; KRaw].
Let ks1 := [KType; KSpace; KTypeName].
Lemma ty_name f (s : st) : base (s_heap s) -> Kp okr ks0 (s_heap s) -> 8 * length ls <= f ->
  wp (type_run f (Some x0) []) (fun _ s' => base (s_heap s') /\ Kp okr ks1 (s_heap s')) s.
Proof.
  pose proof Ll as L3. intros B HK Lf. rewrite type_run_eq. apply wp_bind, wp_get_kind.
  rewrite (pre_kind ks0 _ 0 x0 KType (proj1 HK) E0 eq_refl). kred. unfold walk. apply wp_bind.
  apply step_iterM; [lia|]. apply wb_run. unfold ty_sw at 1. apply wp_bind, wp_get_kind. rewrite (pre_kind ks0 _ 0 x0 KType (proj1 HK) E0 eq_refl). kred. apply wp_ret. cbn [fst snd].
  rewrite (pre_next ks0 _ 0 x0 (proj1 HK) E0), E1 by (cbn; lia).
  apply step_iterM; [lia|]. apply wb_run. unfold ty_sw at 1. apply wp_bind, wp_get_kind. rewrite (pre_kind ks0 _ 1 x1 KSpace (proj1 HK) E1 eq_refl). kred. apply wp_ret. cbn [fst snd].
  rewrite (pre_next ks0 _ 1 x1 (proj1 HK) E1), E2 by (cbn; lia).
  apply step_iterM; [lia|]. apply wb_run. unfold ty_sw at 1. apply wp_bind, wp_get_kind. rewrite (pre_kind ks0 _ 2 x2 KRaw (proj1 HK) E2 eq_refl). kred. apply wp_bind.
  apply (set_kind_pre okr ks0 2); [done|done|done|cbn; lia|apply okk_base, mem_kind_true; reflexivity|].
  clear s B HK. intros s B HK. apply wp_ret. cbn [fst snd]. eapply wp_mono.
  - apply (ty_tail okr ks1); [done|exact HK| |change (length ks1) with 3; lia|change (length ks1) with 3; lia].
    eapply base_next; [exact B|]. by apply from_at.
  - intros r s2 (B2 & K2). by apply wp_ret.
Qed.
End name.
Section keyword.
Context (x0 x1 x2 x3 x4 : loc) (tl : list loc) (Els : ls = x0 :: x1 :: x2 :: x3 :: x4 :: tl).
Let E0 : ls !! 0 = Some x0. Proof. by rewrite Els. Qed.
Let E1 : ls !! 1 = Some x1. Proof. by rewrite Els. Qed.
Let E2 : ls !! 2 = Some x2. Proof. by rewrite Els. Qed.
Let E3 : ls !! 3 = Some x3. Proof. by rewrite Els. Qed.
Let E4 : ls !! 4 = Some x4. Proof. by rewrite Els. Qed.
Let Ll : 5 <= length ls. Proof. rewrite Els. cbn [length]. lia. Qed.
Let ks1 k := [KType; KSpace; KTypeName; KSpace; k].
Let HKk k h p k' : base h -> Kp okr (ks1 k) h -> from 5 p -> k' ∈ okk okr -> kind_of h p ∈ param_kinds -> Kp okr (ks1 k) (set_kind h p k').
Proof. intros B HK F Ok _. by apply Kp_k. Qed.
Let HKm k (h : heap) p vs r h' b b' : base h -> Kp okr (ks1 k) h -> from 5 p -> nseg h p vs r ->
  Forall (fun l => l ∈ ls /\ kind_of h (Some l) ∉ run_kinds) vs -> (r = None \/ kind_of h r ∈ run_kinds) ->
  finish_combine KParamType (map Some (filter (fun l => kind_of h (Some l) <> KComment) vs)) (mkSt h b) = Ok (mkSt h' b', tt) ->
  base h' -> Kp okr (ks1 k) h'.
Proof. intros B HK F Sg _ _ E _. by eapply Kp_m. Qed.
Lemma struct_tail fuel (s : st) : base (s_heap s) -> Kp okr (ks1 KStruct) (s_heap s) -> 6 * N 4 + 2 <= fuel ->
  wp (struct_run fuel (Some x4) []) (fun r s' => base (s_heap s') /\ Kp okr (ks1 KStruct) (s_heap s')) s.
Proof.
  pose proof Ll as L5. intros B HK Lf. rewrite struct_run_eq. apply wp_bind.
  eapply wp_mono; [apply (find_next_pure h0 ls 4); [done|by apply from_at|lia]|]. intros m s1 [-> F1]. cbv beta. apply wp_bind, wp_get_next.
  assert (F2 : from 5 (next_of (s_heap s) m)) by (eapply base_next; [exact B|done]).
  eapply wp_mono.
  - apply (wp_walk h0 ls ND 5 (Kp okr (ks1 KStruct)) any false 5 _ [] _ _ fuel s (fun l s' => True)); [done|done|done|done|lia|].
    intros l j x s' El Lj I' _. unfold st_sw. apply wp_bind, wp_get_kind.
    destruct (kind_eqb _ KCurlyR) eqn:E; [by apply wp_ret|]. destruct (mem_kind _ _); [by apply wp_ret|].
    apply wp_bind. eapply wp_mono; [apply (row_ok h0 ls ND Hval Hout okr 5 (Kp okr (ks1 KStruct)) (HKk KStruct) (HKm KStruct) j); [done|done|lia|by apply from_at|lia]|].
    intros r s2 [I2 _]. by apply wp_ret.
  - intros r s' ((B' & K' & _) & _). done.
Qed.
Lemma interface_tail fuel (s : st) : base (s_heap s) -> Kp okr (ks1 KInterface) (s_heap s) -> 6 * N 4 + 2 <= fuel ->
  wp (interface_run fuel (Some x4) []) (fun r s' => base (s_heap s') /\ Kp okr (ks1 KInterface) (s_heap s')) s.
Proof.
  pose proof Ll as L5. intros B HK Lf. rewrite interface_run_eq. apply wp_bind.
  eapply (wp_mono _ (fun r s' => s' = s /\ from 5 r)).
  { unfold find_next. apply wp_bind. apply step_iterM; [lia|]. apply wp_bind. unfold wp at 1, handle_hook. cbn [fold_left]. apply wp_bind, wp_get_kind, wp_ret.
    rewrite (pre_kind (ks1 KInterface) _ 4 x4 KInterface (proj1 HK) E4 eq_refl). cbn [fst snd].
    change (find_decide [KCurlyL] opt0 KInterface (count_step KInterface (0, 0, 0)%Z)) with true. cbv iota.
    eapply (wp_iterM h0 ls (fun q _ s' => s' = s) _ 5); [| | |exact (Nat.le_refl 5)|eapply base_next; [exact B|by apply from_at]|lia|done].
    - intros q w s' ->. done.
    - intros c s' ->. apply wp_ret. done.
    - intros l j c s' El Lj ->. apply wp_bind. unfold wp at 1, handle_hook. cbn [fold_left].
      apply wp_bind, wp_get_kind, wp_ret. cbn [fst snd]. destruct (find_decide _ _ _ _); [done|].
      apply wp_ret. cbn [snd]. split; [done|]. by exists j. }
  intros m s' [-> Fm]. cbv beta.
  eapply wp_mono.
  - apply (wp_walk h0 ls ND 5 (Kp okr (ks1 KInterface)) any false 5 m [] _ _ fuel s (fun l s' => True)); [done|done|done|done|lia|].
    intros l j x s' El Lj I' _. assert (Fl : from 5 (Some l)) by (exists j; split; [lia|done]).
    unfold if_sw. apply wp_bind, wp_get_kind.
    destruct (kind_eqb _ KCurlyR) eqn:E; [by apply wp_ret|]. destruct (mem_kind _ _); [by apply wp_ret|].
    apply wp_bind. unfold is_line_function. apply wp_bind. eapply wp_scanM; [exact ND|exact Hval|by eapply inv_base|by apply from_at|]. intros r. apply wp_ret.
    destruct (fst r).
    + apply wp_bind. destruct (blockp okr (ks1 KInterface) fuel) as (_ & _ & _ & IFR & _).
      eapply wp_mono; [apply (IFR _ j); [by right; right; left|done|done|change (5 <= j); lia|by apply from_at|lia]|]. intros r' s2 [I2 _]. by apply wp_ret.
    + apply wp_bind. eapply (wp_mono _ (fun _ s2 => inv h0 ls (Kp okr (ks1 KInterface)) any s2)).
      { destruct (kind_eqb _ KRaw) eqn:E5; [|by apply wp_ret]. apply kind_eqb_true in E5.
        eapply set_kind_ok; [exact Hval|exact (HKk KInterface)|exact I'|done|apply okk_base, mem_kind_true; reflexivity|rewrite E5; apply mem_kind_true; reflexivity|done]. }
      intros ? s2 I2. cbv beta. apply wp_bind. eapply wp_mono; [apply (find_next_ok h0 ls 5 (Kp okr (ks1 KInterface)) any j); [done|done|lia|by apply from_at|lia]|].
      intros r' s3 [I3 _]. by apply wp_ret.
  - intros r s' ((B' & K' & _) & _). done.
Qed.
Lemma ty_keyword k f (s : st) : k = KStruct \/ k = KInterface -> base (s_heap s) -> Kp okr [KType; KSpace; KRaw; KSpace; k] (s_heap s) -> 8 * length ls <= f ->
  wp (type_run f (Some x0) []) (fun _ s' => base (s_heap s') /\ Kp okr (ks1 k) (s_heap s')) s.
Proof.
  pose proof Ll as L5. intros Hk B HK Lf. rewrite type_run_eq. apply wp_bind, wp_get_kind.
  set (ks0 := [KType; KSpace; KRaw; KSpace; k]) in *.
  rewrite (pre_kind ks0 _ 0 x0 KType (proj1 HK) E0 eq_refl). kred. unfold walk. apply wp_bind.
  apply step_iterM; [lia|]. apply wb_run. unfold ty_sw at 1. apply wp_bind, wp_get_kind. rewrite (pre_kind ks0 _ 0 x0 KType (proj1 HK) E0 eq_refl). kred. apply wp_ret. cbn [fst snd].
  rewrite (pre_next ks0 _ 0 x0 (proj1 HK) E0), E1 by (cbn; lia).
  apply step_iterM; [lia|]. apply wb_run. unfold ty_sw at 1. apply wp_bind, wp_get_kind. rewrite (pre_kind ks0 _ 1 x1 KSpace (proj1 HK) E1 eq_refl). kred. apply wp_ret. cbn [fst snd].
  rewrite (pre_next ks0 _ 1 x1 (proj1 HK) E1), E2 by (cbn; lia).
  apply step_iterM; [lia|]. apply wb_run. unfold ty_sw at 1. apply wp_bind, wp_get_kind. rewrite (pre_kind ks0 _ 2 x2 KRaw (proj1 HK) E2 eq_refl). kred. apply wp_bind.
  apply (set_kind_pre okr ks0 2); [done|done|done|cbn; lia|apply okk_base, mem_kind_true; reflexivity|].
  clear s B HK. intros s B HK. change (Kp okr (ks1 k) (s_heap s)) in HK. apply wp_ret. cbn [fst snd].
  rewrite (pre_next (ks1 k) _ 2 x2 (proj1 HK) E2), E3 by (cbn; lia).
  apply step_iterM; [lia|]. apply wb_run. unfold ty_sw at 1. apply wp_bind, wp_get_kind. rewrite (pre_kind (ks1 k) _ 3 x3 KSpace (proj1 HK) E3 eq_refl). kred. apply wp_ret. cbn [fst snd].
  rewrite (pre_next (ks1 k) _ 3 x3 (proj1 HK) E3), E4 by (cbn; lia).
  apply step_iterM; [lia|]. apply wb_run. unfold ty_sw at 1. apply wp_bind, wp_get_kind. rewrite (pre_kind (ks1 k) _ 4 x4 k (proj1 HK) E4 eq_refl). 
  destruct Hk as [-> | ->]; kred; apply wp_bind; (eapply wp_mono; [(apply struct_tail || apply interface_tail); [done|done|lia]|]);
    clear s B HK; intros r s [B HK]; cbv beta; apply wp_ret; cbn [fst snd]; eapply wp_mono.
  1,3: eapply (ty_tail okr (ks1 _)); [exact B|exact HK|eapply base_next; [exact B|by apply from_at]|change (length (ks1 _)) with 5; lia|change (length (ks1 _)) with 5; lia].
  all: intros r' s2 (B2 & K2); by apply wp_ret.
Qed.
End keyword.
End type.
End prefix.
