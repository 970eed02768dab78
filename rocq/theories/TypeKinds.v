(** Refining a type declaration whose lexemes are known, exactly. *)
From Verif Require Export KindProofs.

(** ** Counting the names of a row *)
Notation count_raw ks := (length (filter (fun k => k = KRaw) ks)).
Definition rnc_of (p : list kind) : rnc :=
  let c := commas p in
  mkRnc (Z.of_nat (count_raw p)) (negb (c =? 0)) (gap p)
    (if c =? 0 then if gap p then 1%Z else 0%Z else Z.of_nat (S c)) (if c =? 0 then 0%Z else Z.of_nat (S c)).
Definition named_in (p : list kind) : nat := match commas p with 0 => if gap p then 1 else 0 | c => S c end.
Definition name_kinds : list kind := [KComment; KTab; KRaw; KSpace; KComma].
Lemma raw_some p : KRaw ∈ p -> (Z.of_nat (count_raw p) =? 0)%Z = false.
Proof.
  intros H. apply Z.eqb_neq. assert (KRaw ∈ filter (fun k => k = KRaw) p) by (by apply elem_of_list_filter). destruct (filter _ p); [by apply elem_of_nil in H0|]. cbn [length]. lia.
Qed.
Lemma raw_none p : KRaw ∉ p -> (Z.of_nat (count_raw p) =? 0)%Z = true.
Proof.
  intros H. apply Z.eqb_eq. destruct (filter (fun k => k = KRaw) p) as [|x xs] eqn:E; [done|]. exfalso. apply H.
  assert (Hx : x ∈ filter (fun k => k = KRaw) p) by (rewrite E; by left). apply elem_of_list_filter in Hx as [-> Hx]. done.
Qed.
Lemma gap_raw p : KRaw ∉ p -> gap p = false.
Proof. induction p as [|k p IH]; [done|]. intros N. apply not_elem_of_cons in N as [N1 N2]. cbn [gap]. rewrite bool_decide_eq_false_2 by done. by apply IH. Qed.
Lemma gap_snoc p k : gap (p ++ [k]) = gap p || (bool_decide (KRaw ∈ p) && bool_decide (k = KSpace)).
Proof.
  induction p as [|x p IH]; cbn [app gap].
  - rewrite (bool_decide_eq_false_2 (KRaw ∈ [])) by apply not_elem_of_nil. case_bool_decide; [|done]. by rewrite bool_decide_eq_false_2 by apply not_elem_of_nil.
  - destruct (decide (x = KRaw)) as [->|E1].
    + rewrite (bool_decide_eq_true_2 (KRaw = KRaw)) by done. rewrite (bool_decide_eq_true_2 (KRaw ∈ KRaw :: p)) by (by left). cbn [andb]. apply eq_true_iff_eq. rewrite orb_true_iff, !bool_decide_eq_true, elem_of_app, elem_of_list_singleton. split; (intros [?|?]; [by left|right; congruence]).
    + rewrite (bool_decide_eq_false_2 _ E1). rewrite IH. f_equal. f_equal. apply bool_decide_ext. rewrite elem_of_cons. naive_solver.
Qed.
Lemma commas_snoc p k : commas (p ++ [k]) = commas p + (if bool_decide (k = KComma) then 1 else 0).
Proof. unfold commas. rewrite filter_app, app_length. f_equal. rewrite filter_cons, filter_nil. by case_decide; [rewrite bool_decide_eq_true_2|rewrite bool_decide_eq_false_2]. Qed.
Lemma raws_snoc p k : count_raw (p ++ [k]) = count_raw p + (if bool_decide (k = KRaw) then 1 else 0).
Proof. rewrite filter_app, app_length. f_equal. rewrite filter_cons, filter_nil. by case_decide; [rewrite bool_decide_eq_true_2|rewrite bool_decide_eq_false_2]. Qed.
Lemma rnc_go p k : k ∈ name_kinds -> rnc_step k (rnc_of p) = (rnc_of (p ++ [k]), true).
Proof.
  intros Hk. unfold rnc_of. cbv zeta. rewrite commas_snoc, raws_snoc, gap_snoc. unfold name_kinds in Hk. rewrite !elem_of_cons in Hk.
  destruct Hk as [->|[->|[->|[->|[->|Hk]]]]]; [..|by apply elem_of_nil in Hk]; unfold rnc_step; kred; cbv iota.
  - rewrite !Nat.add_0_r, andb_false_r, orb_false_r. done.
  - rewrite !Nat.add_0_r, andb_false_r, orb_false_r. done.
  - rewrite !Nat.add_0_r, andb_false_r, orb_false_r. f_equal. f_equal. rewrite bool_decide_eq_true_2 by done. lia.
  - rewrite !Nat.add_0_r, andb_true_r. destruct (decide (KRaw ∈ p)) as [Hr|Hr].
    + rewrite (raw_some p Hr), (bool_decide_eq_true_2 _ Hr), orb_true_r. cbn [negb]. f_equal. f_equal. destruct (commas p); cbn [Nat.eqb negb]; destruct (gap p); cbn; lia.
    + rewrite (raw_none p Hr), (bool_decide_eq_false_2 _ Hr), orb_false_r. cbn [negb]. done.
  - rewrite !Nat.add_0_r, andb_false_r, orb_false_r. destruct (commas p) as [|c] eqn:Ec; cbn [Nat.eqb negb Nat.add].
    + destruct (gap p); cbn; done.
    + replace ((Z.of_nat (S (S c)) =? 0)%Z) with false by (symmetry; apply Z.eqb_neq; lia). rewrite bool_decide_eq_true_2 by done. rewrite Nat.add_1_r. cbn [Nat.eqb]. f_equal. f_equal; lia.
Qed.
Lemma rnc_stop p k : k ∉ name_kinds -> exists v, rnc_step k (rnc_of p) = (v, false) /\ rc_names v = Z.of_nat (named_in p).
Proof.
  intros Hk.
  assert (E : rc_names (mkRnc (Z.of_nat (count_raw p)) (negb (commas p =? 0)) (gap p) (if commas p =? 0 then if gap p then 1%Z else 0%Z else Z.of_nat (S (commas p)))
     (if gap p then (if commas p =? 0 then if gap p then 1%Z else 0%Z else Z.of_nat (S (commas p))) else (if commas p =? 0 then 0%Z else Z.of_nat (S (commas p))))) = Z.of_nat (named_in p)).
  { cbn [rc_names]. unfold named_in. destruct (commas p); cbn [Nat.eqb]; by destruct (gap p). }
  unfold rnc_of, rnc_step. cbv zeta. destruct (kind_eqb k KNewLine) eqn:En; [eexists; split; [reflexivity|exact E]|].
  rewrite (kinds_out k _ [KComment; KTab] Hk) by reflexivity. rewrite (kind_elem k KRaw _ Hk), (kind_elem k KSpace _ Hk), (kind_elem k KComma _ Hk) by reflexivity.
  eexists; split; [reflexivity|exact E].
Qed.
Lemma names_in p k : k ∉ name_kinds -> forall ks, Forall (fun x => x ∈ name_kinds) p -> names (p ++ k :: ks) = named_in p.
Proof.
  intros Hk ks F. unfold names. assert (E : name_part (p ++ k :: ks) = p).
  { induction F as [|x p Hx F IH]; cbn [app name_part]; [by rewrite bool_decide_eq_false_2|]. rewrite bool_decide_eq_true_2 by done. by rewrite IH. }
  by rewrite E.
Qed.
Lemma names_all p : Forall (fun x => x ∈ name_kinds) p -> names p = named_in p.
Proof.
  intros F. unfold names. assert (E : name_part p = p).
  { induction F as [|x p Hx F IH]; cbn [app name_part]; [done|]. rewrite bool_decide_eq_true_2 by done. by rewrite IH. }
  by rewrite E.
Qed.

Lemma param_length deep : (forall name typ b ts ts', refines deep name typ b ts ts' -> length ts' = length ts) /\ (forall name typ ts ts', params deep name typ ts ts' -> length ts' = length ts).
Proof.
  apply (refines_params_ind deep (fun name typ b ts ts' => length ts' = length ts) (fun name typ ts ts' => length ts' = length ts)); intros; cbn [length]; rewrite ?app_length, ?map_length; cbn [length]; lia.
Qed.
Lemma parens_length name typ ts ts' : parens name typ ts ts' -> length ts' = length ts.
Proof. intros [t ps ps' u P]. apply param_length in P. cbn [length]. rewrite !app_length. cbn [length]. lia. Qed.
Lemma results_length ts ts' : results ts ts' -> length ts' <= length ts.
Proof.
  induction 1 as [|s ps ps' ts ts' P R IH|s w ts ts' Hw R IH|s w o b c ts ts' Hw Ne R IH|s t u ps ps' v ts ts' P R IH]; [done|..]; cbn [length]; rewrite !app_length.
  - apply parens_length in P. lia.
  - destruct Hw as [Nw _]. destruct w; [done|]. cbn [length]. lia.
  - destruct Hw as [Nw _]. destruct w; [done|]. cbn [length]. rewrite !app_length. cbn [length]. lia.
  - apply (proj2 (param_length false)) in P. cbn [length]. lia.
Qed.

Lemma outcome_length ts ts' : outcome ts ts' -> length ts' <= length ts.
Proof.
  intros [t t' R|k u t t' Hk R|sp ps ps' k u t t' Hk P R]; apply results_length in R; cbn [length]; rewrite ?app_length; cbn [length]; [lia..|]. apply parens_length in P. lia.
Qed.

Section types.
Context (h0 : heap) (ls : list loc) (W0 : SpecNode.wf h0) (C0 : chain h0 ls).
Let ND : NoDup ls := c_nd h0 ls C0.
Let Hval := c_val h0 ls C0.
Let Hout := c_out h0 ls W0 C0.
Notation from := (from ls).
Notation base := (base h0 ls).
Notation Kc := (Kc ls).
Notation N i := (length ls - i).
Notation walked := (walked h0 ls).

Lemma kc_len lo A S B (s : st) : base (s_heap s) -> Kc lo (A ++ S ++ B) (s_heap s) -> length (map fst S) <= length (s_heap s).
Proof.
  intros Bs H. apply (NoDup_bound (map fst S) (length (s_heap s))).
  - pose proof (kc_nodup h0 ls W0 C0 lo _ _ Bs H) as D. rewrite !map_app in D. apply NoDup_app in D as (_ & _ & D). by apply NoDup_app in D as (D & _ & _).
  - intros x Hx. apply elem_of_list_fmap in Hx as (y & -> & Hy). eapply base_valid; [exact Hval|exact Bs|].
    apply (kc_in ls _ _ _ y H). rewrite !elem_of_app. tauto.
Qed.
Lemma row_count lo A (S : list cell) (c : cell) B (s : st) : base (s_heap s) -> Kc lo (A ++ S ++ c :: B) (s_heap s) -> knd c = KNewLine ->
  row_name_count (cursor (s_heap s) A (S ++ c :: B)) s = Ok (s, Z.of_nat (names (map snd (map snd S)))).
Proof.
  intros Bs H Kc'. unfold row_name_count, bind, scanM. set (fn := fun l v => rnc_step (kind_of (s_heap s) (Some l)) v).
  assert (Efn : forall l v, fn l v = rnc_step (kind_of (s_heap s) (Some l)) v) by done.
  assert (G : forall S2 p, (forall x, x ∈ S2 ++ [c] -> kind_of (s_heap s) (Some (fst x)) = knd x) -> Forall (fun x => x ∈ name_kinds) p ->
    snd (scan_list fn (map fst (S2 ++ [c])) (rnc_of p)) <> None /\ rc_names (fst (scan_list fn (map fst (S2 ++ [c])) (rnc_of p))) = Z.of_nat (names (p ++ map snd (map snd S2)))).
  { clear H. induction S2 as [|x S2 IH]; intros p Hk F; cbn [app map scan_list]; rewrite Efn.
    - rewrite (Hk c) by (by left). rewrite Kc'. destruct (rnc_stop p KNewLine) as (v & E & Ev); [by apply mem_kind_false|]. rewrite E. cbn [fst snd]. rewrite app_nil_r, (names_all _ F). done.
    - rewrite (Hk x) by (by left). destruct (decide (knd x ∈ name_kinds)) as [Hx|Hx].
      + rewrite (rnc_go p _ Hx). destruct (IH (p ++ [knd x])) as [I1 I2]; [intros; apply Hk; by right|by apply Forall_app; split; [done|apply Forall_singleton]|].
        rewrite <- app_assoc in I2. done.
      + destruct (rnc_stop p _ Hx) as (v & E & Ev). rewrite E. cbn [fst snd]. rewrite (names_in p _ Hx _ F). done. }
  assert (Hk : forall x, x ∈ S ++ [c] -> kind_of (s_heap s) (Some (fst x)) = knd x).
  { intros x Hx. rewrite <- (kc_show ls _ _ _ x H); [done|]. rewrite elem_of_app in Hx. rewrite elem_of_list_singleton in Hx. rewrite !elem_of_app, elem_of_cons. tauto. }
  destruct (G S [] Hk ltac:(done)) as [E1 E2].
  assert (H' : Kc lo (A ++ (S ++ [c]) ++ B) (s_heap s)) by (by rewrite <- app_assoc).
  pose proof (kc_stretch ls lo A (S ++ [c]) B _ H') as Sg. rewrite <- app_assoc in Sg. cbn [app] in Sg.
  pose proof (scan_seg (s_heap s) fn (map fst (S ++ [c])) _ _ (rnc_of []) Sg ltac:(by eapply kc_len) E1) as Es.
  change (rnc_of []) with (mkRnc 0 false false 0 0)%Z in *. cbv beta. fold fn. rewrite Es. cbn [res_bind]. rewrite E2. done.
Qed.
Lemma row_walk lo n ts ts' : row n ts ts' -> forall (A S : list cell) (c : cell) (B : list cell) f fuel (w : wl Z) (s : st), map snd S = ts -> knd c = KNewLine -> base (s_heap s) -> Kc lo (A ++ S ++ c :: B) (s_heap s) ->
  w_x w = Z.of_nat n -> 6 * length S + 9 <= f -> length S + 1 <= fuel -> at_node (cursor (s_heap s) A (S ++ c :: B)) w ->
  wp (iterM fuel (walk_body false [] (row_sw f)) (cursor (s_heap s) A (S ++ c :: B)) w) (fun r => walked lo A S ts' (c :: B) (snd r)) s.
Proof.
  induction 1 as [n|n t ts ts' R IH|t ts ts' R IH|n t k ts ts' Nk R IH|n t u ps ps' v ts ts' P R IH]; intros A S c B f fuel w s Es Kcn Bs H Hx Lf Lfu At.
  - apply map_eq_nil in Es as ->. cbn [app cursor length] in *. apply w_step; [lia|done|].
    apply (wp_ok _ (Stop, w_x w) _ _ s). { unfold row_sw, bind, get_kind, ret. cbn [res_bind]. rewrite (kc_at ls _ _ _ _ _ H), Kcn. reflexivity. }
    cbn [fst snd]. split; [done|]. split; [done|]. by exists [].
  - destruct S as [|[l [t' k']] S]; [done|]. cbn [map snd] in Es. injection Es as -> -> Es. cbn [app cursor length fst] in *. apply w_step; [lia|done|].
    destruct (kc_set h0 ls W0 C0 lo A l t KRaw (S ++ c :: B) _ KParamName Bs H) as [B2 H2]; [apply mem_kind_true; reflexivity|].
    unfold row_sw at 1. apply wp_bind, wp_get_kind. rewrite (kc_kind ls _ _ _ _ _ _ _ H), Hx. kred. cbv iota.
    replace (Z.of_nat (Datatypes.S n) =? 0)%Z with false by (symmetry; apply Z.eqb_neq; lia). cbn [negb]. apply wp_bind, wp_set_kind, wp_ret. cbn [fst snd s_heap].
    pose proof (cursor_next ls _ _ _ _ _ H2) as Nx. cbn [fst] in Nx. rewrite Nx. eapply wp_mono.
    + apply (IH (A ++ [(l, (t, KParamName))]) S c B f (pred fuel) (mkWl false None (Z.of_nat (Datatypes.S n) - 1)%Z) (mkSt (set_kind (s_heap s) (Some l) KParamName) (s_buf s)));
        cbn [s_heap w_x]; [done|done|done|by rewrite <- app_assoc|lia|lia|lia|apply at_fresh].
    + intros r s' Hw. apply (walked_more h0 ls lo A [(l, (t, KRaw))] [(l, (t, KParamName))] S ts' (c :: B) _ s'); done.
  - destruct S as [|[l [t' k']] S]; [done|]. cbn [map snd] in Es. injection Es as -> -> Es. cbn [app cursor length fst] in *. apply w_step; [lia|done|].
    destruct (kc_set h0 ls W0 C0 lo A l t KRaw (S ++ c :: B) _ KParamType Bs H) as [B2 H2]; [apply mem_kind_true; reflexivity|].
    unfold row_sw at 1. apply wp_bind, wp_get_kind. rewrite (kc_kind ls _ _ _ _ _ _ _ H), Hx. kred. cbv iota.
    change (Z.of_nat 0 =? 0)%Z with true. cbn [negb]. apply wp_bind, wp_set_kind, wp_ret. cbn [fst snd s_heap].
    pose proof (cursor_next ls _ _ _ _ _ H2) as Nx. cbn [fst] in Nx. rewrite Nx. eapply wp_mono.
    + apply (IH (A ++ [(l, (t, KParamType))]) S c B f (pred fuel) (mkWl false None (Z.of_nat 0)) (mkSt (set_kind (s_heap s) (Some l) KParamType) (s_buf s)));
        cbn [s_heap w_x]; [done|done|done|by rewrite <- app_assoc|lia|lia|lia|apply at_fresh].
    + intros r s' Hw. apply (walked_more h0 ls lo A [(l, (t, KRaw))] [(l, (t, KParamType))] S ts' (c :: B) _ s'); done.
  - destruct S as [|[l [t' k']] S]; [done|]. cbn [map snd] in Es. injection Es as -> -> Es. cbn [app cursor length fst] in *. apply w_step; [lia|done|].
    apply (wp_ok _ (Cont, w_x w) _ _ s).
    { unfold row_sw, bind, get_kind, ret. cbn [res_bind]. rewrite (kc_kind ls _ _ _ _ _ _ _ H). rewrite (kind_elem k KNewLine _ Nk), (kind_elem k KRaw _ Nk), (kind_elem k KFunc _ Nk) by reflexivity.
      by destruct (mem_kind k _). }
    cbn [fst snd]. pose proof (cursor_next ls _ _ _ _ _ H) as Nx. cbn [fst] in Nx. rewrite Nx. eapply wp_mono.
    + apply (IH (A ++ [(l, (t, k))]) S c B f (pred fuel) (mkWl false None (w_x w)) s); [done|done|done|by rewrite <- app_assoc|done|lia|lia|apply at_fresh].
    + intros r s' Hw. apply (walked_more h0 ls lo A [(l, (t, k))] [(l, (t, k))] S ts' (c :: B) _ s'); done.
  - destruct S as [|[l [t' k']] S]; [done|]. cbn [map snd] in Es. injection Es as -> -> Es. destruct S as [|[l1 [t' k']] S]; [done|]. cbn [map snd] in Es. injection Es as -> -> Es.
    apply map_eq_app in Es as (P0 & S2 & -> & EP & Es). destruct S2 as [|[l2 [u' k2]] S2]; [done|]. cbn [map snd] in Es. injection Es as -> -> Es.
    cbn [app cursor length fst] in *. rewrite app_length in *. cbn [length] in *. rewrite <- app_assoc in *. cbn [app] in *. apply w_step; [lia|done|].
    unfold row_sw at 1. apply wp_bind, wp_get_kind. rewrite (kc_kind ls _ _ _ _ _ _ _ H). kred. cbv iota. apply wp_bind. change [raw_hook] with (hs true).
    eapply wp_mono; [apply (param_func h0 ls W0 C0 true (length ps) lo A (l, (t, KFunc)) (l1, (u, KParenL)) P0 (l2, (v, KParenR)) (S2 ++ c :: B) f ps ps' s); [apply paren_walk; done|done|lia|done|done|done|done|done|done|by destruct S2|lia]|].
    intros r s1 [(_ & B1 & P1 & K1 & M1 & M2) ->]. cbv beta. apply wp_ret. cbn [fst snd].
    pose proof (fst_length _ _ M2) as Lp.
    assert (K2 : Kc lo (A ++ (l, (t, KFunc)) :: (l1, (u, KParenL)) :: P1 ++ (l2, (v, KParenR)) :: S2 ++ c :: B) (s_heap s1)) by (rewrite <- app_assoc in K1; exact K1).
    pose proof (cursor_next ls _ _ _ _ _ K2) as Nx. cbn [fst] in Nx. rewrite Nx.
    assert (exists d D, S2 ++ c :: B = d :: D) as (d & D & Ed) by (destruct S2; cbn [app]; eauto). rewrite Ed. change (cursor (s_heap s1) [] (d :: D)) with (Some (fst d)).
    assert (K3 : Kc lo ((A ++ [(l, (t, KFunc))]) ++ ((l1, (u, KParenL)) :: P1 ++ [(l2, (v, KParenR))]) ++ d :: D) (s_heap s1)).
    { rewrite <- app_assoc. cbn [app]. rewrite <- app_assoc. cbn [app]. rewrite <- Ed. exact K2. }
    assert (Ex : (l1, (u, KParenL)) :: P1 ++ (l2, (v, KParenR)) :: d :: D = ((l1, (u, KParenL)) :: P1 ++ [(l2, (v, KParenR))]) ++ d :: D) by (cbn [app]; by rewrite <- app_assoc).
    rewrite Ex. eapply (w_jumped h0 ls W0 C0); [done|exact K3|cbn [length]; rewrite app_length; cbn [length]; lia|].
    cbn [length]. rewrite app_length. cbn [length].
    assert (Ec : Some (fst d) = cursor (s_heap s1) (A ++ (l, (t, KFunc)) :: (l1, (u, KParenL)) :: P1 ++ [(l2, (v, KParenR))]) (S2 ++ c :: B)) by (by rewrite Ed).
    rewrite Ec. eapply wp_mono.
    + apply (IH _ S2 c B f _ (mkWl false _ (w_x w)) s1); [done|done|done| |done|lia|lia|apply at_target].
      rewrite <- app_assoc. cbn [app]. rewrite <- app_assoc. exact K2.
    + intros r s' Hw.
      assert (Em : map fst ((l, (t, KFunc)) :: (l1, (u, KParenL)) :: P1 ++ [(l2, (v, KParenR))]) = map fst ((l, (t, KFunc)) :: (l1, (u, KParenL)) :: P0 ++ [(l2, (v, KParenR))])).
      { rewrite !map_cons, !map_app, M2. done. }
      pose proof (walked_more h0 ls lo A _ _ S2 ts' (c :: B) _ s' Em Hw) as Hw'.
      rewrite !map_cons, map_app in Hw'. cbn [map snd app] in Hw'. rewrite M1, <- !app_assoc in Hw'. exact Hw'.
Qed.

(** ** Structs *)
Lemma find_to lo A (S : list cell) (c : cell) B f tg (s : st) : base (s_heap s) -> Kc lo (A ++ S ++ c :: B) (s_heap s) -> Forall (fun x : cell => knd x ∉ tg) S -> knd c ∈ tg -> length S < f ->
  wp (find_next f (cursor (s_heap s) A (S ++ c :: B)) tg opt0 []) (fun r s' => r = Some (fst c) /\ s' = s) s.
Proof.
  intros Bs H F Hc Lf. unfold find_next. apply wp_bind. generalize (0, 0, 0)%Z. revert A f H Lf. induction F as [|x S Hx F IH]; intros A f H Lf cnt.
  - cbn [app cursor length] in *. apply step_iterM; [lia|]. apply wp_bind. apply (wp_ok _ tt _ _ s); [done|]. apply wp_bind, wp_get_kind, wp_ret. cbn [fst snd]. rewrite (kc_at ls _ _ _ _ _ H).
    assert (E : find_decide tg opt0 (knd c) (count_step (knd c) cnt) = false).
    { unfold find_decide. destruct (count_step _ _) as [[a b] d]. cbn [o_inP o_inC o_inS o_outP o_outC o_outS opt0 o_rev andb]. rewrite contain_new, bool_decide_eq_true_2; done. }
    rewrite E. by apply wp_ret.
  - cbn [app cursor length] in *. apply step_iterM; [lia|]. apply wp_bind. apply (wp_ok _ tt _ _ s); [done|]. apply wp_bind, wp_get_kind, wp_ret. cbn [fst snd]. rewrite (kc_at ls _ _ _ _ _ H).
    assert (E : find_decide tg opt0 (knd x) (count_step (knd x) cnt) = true).
    { unfold find_decide. destruct (count_step _ _) as [[a b] d]. cbn [o_inP o_inC o_inS o_outP o_outC o_outS opt0 o_rev andb negb]. rewrite contain_new, bool_decide_eq_false_2; done. }
    rewrite E. rewrite (cursor_next ls _ _ _ _ _ H). apply IH; [by rewrite <- app_assoc|lia].
Qed.
Lemma fields_walk lo ts ts' : fields ts ts' -> forall (A S : list cell) (c : cell) (B : list cell) f fuel (w : wl unit) (s : st), map snd S = ts -> knd c = KCurlyR -> base (s_heap s) -> Kc lo (A ++ S ++ c :: B) (s_heap s) ->
  6 * length S + 9 <= f -> length S + 1 <= fuel -> at_node (cursor (s_heap s) A (S ++ c :: B)) w ->
  wp (iterM fuel (walk_body false [] (st_sw f [])) (cursor (s_heap s) A (S ++ c :: B)) w) (fun r => walked lo A S ts' (c :: B) (snd r)) s.
Proof.
  induction 1 as [|t k ts ts' Hk R IH|t k r r' u ts ts' Nk Rw R IH]; intros A S c B f fuel w s Es Kcn Bs H Lf Lfu At.
  - apply map_eq_nil in Es as ->. cbn [app cursor length] in *. apply w_step; [lia|done|].
    apply (wp_ok _ (Stop, tt) _ _ s). { unfold st_sw, bind, get_kind, ret. cbn [res_bind]. rewrite (kc_at ls _ _ _ _ _ H), Kcn. reflexivity. }
    cbn [fst snd]. split; [done|]. split; [done|]. by exists [].
  - destruct S as [|[l [t' k']] S]; [done|]. cbn [map snd] in Es. injection Es as -> -> Es. cbn [app cursor length fst] in *. apply w_step; [lia|done|].
    apply (wp_ok _ (Cont, tt) _ _ s).
    { unfold st_sw, bind, get_kind, ret. cbn [res_bind]. rewrite (kc_kind ls _ _ _ _ _ _ _ H). rewrite !elem_of_cons in Hk. destruct Hk as [->|[->|[->|Hk]]]; [reflexivity..|by apply elem_of_nil in Hk]. }
    cbn [fst snd]. pose proof (cursor_next ls _ _ _ _ _ H) as Nx. cbn [fst] in Nx. rewrite Nx. eapply wp_mono.
    + apply (IH (A ++ [(l, (t, k))]) S c B f (pred fuel) (mkWl false None tt) s); [done|done|done|by rewrite <- app_assoc|lia|lia|apply at_fresh].
    + intros r s' Hw. apply (walked_more h0 ls lo A [(l, (t, k))] [(l, (t, k))] S ts' (c :: B) _ s'); done.
  - destruct S as [|[l [t' k']] S]; [done|]. cbn [map snd] in Es. injection Es as -> -> Es. apply map_eq_app in Es as (R0 & S2 & -> & ER & Es). destruct S2 as [|[l2 [u' k2]] S2]; [done|]. cbn [map snd] in Es. injection Es as -> -> Es.
    cbn [app cursor length fst] in *. rewrite app_length in *. cbn [length] in *. rewrite <- app_assoc in *. cbn [app] in *. apply w_step; [lia|done|].
    unfold st_sw at 1. apply wp_bind, wp_get_kind. rewrite (kc_kind ls _ _ _ _ _ _ _ H). rewrite (kind_elem k KCurlyR _ Nk), (kinds_out k _ [KComment; KCurlyL; KNewLine] Nk) by reflexivity. cbv iota.
    apply wp_bind. rewrite struct_row_eq. apply wp_bind.
    pose proof (row_count lo A ((l, (t, k)) :: R0) (l2, (u, KNewLine)) (S2 ++ c :: B) s Bs H eq_refl) as Rc. cbn [app cursor fst map snd] in Rc. rewrite ER in Rc.
    apply (wp_ok _ _ _ _ s Rc). unfold walk. apply wp_bind.
    eapply wp_mono.
    { pose proof (row_walk lo _ _ _ Rw A ((l, (t, k)) :: R0) (l2, (u, KNewLine)) (S2 ++ c :: B) f f (mkWl false None (Z.of_nat (names (k :: map snd r)))) s) as RW. cbn [app cursor fst length] in RW.
      apply RW; [cbn [map snd]; by rewrite ER|done|done|done|done|lia|lia|apply at_fresh]. }
    intros x s1 (-> & B1 & S' & K1 & M1 & M2). apply wp_ret. apply wp_ret. cbn [fst snd].
    destruct S' as [|[l' [t' k']] S']; [done|]. cbn [map fst] in M2. injection M2 as -> M2. cbn [app] in K1. pose proof (fst_length _ _ M2) as Lp.
    pose proof (cursor_next ls _ _ _ _ _ K1) as Nx. cbn [fst] in Nx. rewrite Nx.
    change (cursor (s_heap s1) [] ((l2, (u, KNewLine)) :: S2 ++ c :: B)) with (Some (fst ((l2, (u, KNewLine)) : cell))).
    assert (K2 : Kc lo ((A ++ [(l, (t', k'))]) ++ S' ++ (l2, (u, KNewLine)) :: S2 ++ c :: B) (s_heap s1)) by (by rewrite <- app_assoc).
    eapply (w_jumped h0 ls W0 C0); [done|exact K2|lia|]. cbn [fst]. apply w_step; [lia|apply at_target|]. cbn [w_x].
    rewrite app_assoc in K2. apply (wp_ok _ (Cont, tt) _ _ s1).
    { unfold st_sw, bind, get_kind, ret. cbn [res_bind]. rewrite (kc_kind ls _ _ _ _ _ _ _ K2). reflexivity. }
    cbn [fst snd]. pose proof (cursor_next ls _ _ _ _ _ K2) as Nx2. cbn [fst] in Nx2. rewrite Nx2.
    assert (Ea : ((A ++ [(l, (t', k'))]) ++ S') ++ [(l2, (u, KNewLine))] = A ++ (((l, (t', k')) :: S') ++ [(l2, (u, KNewLine))])) by (rewrite <- !app_assoc; done).
    assert (K3 : Kc lo ((((A ++ [(l, (t', k'))]) ++ S') ++ [(l2, (u, KNewLine))]) ++ S2 ++ c :: B) (s_heap s1)) by (rewrite <- (app_assoc _ [_] (S2 ++ c :: B)); exact K2).
    rewrite Ea in *. eapply wp_mono.
    + apply (IH (A ++ (((l, (t', k')) :: S') ++ [(l2, (u, KNewLine))])) S2 c B f _ (mkWl false None tt) s1); [done|done|done|done|lia|lia|apply at_fresh].
    + intros y s' Hw.
      assert (Em : map fst (((l, (t', k')) :: S') ++ [(l2, (u, KNewLine))]) = map fst (((l, (t, k)) :: R0) ++ [(l2, (u, KNewLine))])).
      { rewrite !map_app. cbn [map fst]. by rewrite M2. }
      pose proof (walked_more h0 ls lo A _ _ S2 ts' (c :: B) _ s' Em Hw) as Hw'. rewrite map_app, M1, <- !app_assoc in Hw'. exact Hw'.
Qed.
Lemma struct_walk lo (A P S : list cell) (k o c : cell) (B : list cell) b b' f (s : st) : fields b b' -> map snd S = b -> KCurlyL ∉ map snd (map snd P) -> knd k = KStruct -> knd o = KCurlyL -> knd c = KCurlyR ->
  base (s_heap s) -> Kc lo (A ++ k :: P ++ o :: S ++ c :: B) (s_heap s) -> 6 * length S + 9 <= f -> length P + 1 < f ->
  wp (struct_run f (Some (fst k)) []) (walked lo (A ++ k :: P ++ [o]) S b' (c :: B)) s.
Proof.
  intros F Es Np Kk Ko Kcl Bs H Lf Lp. rewrite struct_run_eq. apply wp_bind.
  eapply wp_mono; [apply (find_to lo A (k :: P) o (S ++ c :: B) f [KCurlyL] s Bs H); [|by rewrite Ko; left|cbn [length]; lia]|].
  { apply Forall_cons. split; [rewrite Kk; apply mem_kind_false; reflexivity|]. apply Forall_forall. intros x Hx Hin. apply elem_of_list_singleton in Hin. apply Np. rewrite <- Hin. rewrite map_map. by apply elem_of_list_fmap_1 with (f := fun c : cell => knd c). }
  intros r s' [-> ->]. cbv beta. apply wp_bind, wp_get_next.
  assert (H1 : Kc lo ((A ++ k :: P) ++ o :: S ++ c :: B) (s_heap s)) by (rewrite <- app_assoc; exact H). rewrite (cursor_next ls _ _ _ _ _ H1). unfold walk. apply wp_bind.
  assert (Ea : (A ++ k :: P) ++ [o] = A ++ k :: P ++ [o]) by (rewrite <- app_assoc; done). rewrite Ea.
  eapply wp_mono; [apply (fields_walk lo b b' F (A ++ k :: P ++ [o]) S c B f f); [done|done|done| |lia|lia|apply at_fresh]|].
  { rewrite <- Ea, <- app_assoc. exact H1. }
  intros r s' Hw. apply wp_ret. exact Hw.
Qed.

(** ** Interfaces *)
Definition became (lo : nat) (A : list cell) (ts' : list lexeme) (R : list cell) (r : ptr) (s' : st) : Prop :=
  r = cursor (s_heap s') [] R /\ base (s_heap s') /\ exists S', Kc lo (A ++ S' ++ R) (s_heap s') /\ map snd S' = ts'.
Lemma became_more lo A M M' ts' R r s' : map snd M = M' -> became lo (A ++ M) ts' R r s' -> became lo A (M' ++ ts') R r s'.
Proof. intros <- (Hr & B & S' & HK & H1). split; [done|]. split; [done|]. exists (M ++ S'). rewrite <- app_assoc in HK. by rewrite <- app_assoc, map_app, H1. Qed.
Lemma method_row lo (A S E : list cell) (c : cell) (B : list cell) n ps ps' rs rs' e f (s : st) : parens KParamName KParamType ps ps' -> outcome rs rs' -> line_end e -> snd c = (n, KRaw) -> map snd S = ps ++ rs -> map snd E = e ->
  base (s_heap s) -> Kc lo (A ++ c :: S ++ E ++ B) (s_heap s) -> 6 * (length S + length E) + 15 <= f ->
  wp (func_run f ff_i (Some (fst c)) []) (fun r s' => base (s_heap s') /\ (exists S', map snd S' = ps' ++ rs' /\ Kc lo (A ++ (fst c, (n, KFuncName)) :: S' ++ E ++ B) (s_heap s')) /\ r = fst <$> last E) s.
Proof.
  intros P R He Ec Es Ee Bs H Lf. destruct c as [l x]. cbn [snd fst] in *. subst x.
  destruct f as [|[|f]]; [lia..|]. rewrite func_run_eq. cbn [ff_param ff_iface ff_i]. rewrite general_func_eq. apply wp_bind, wp_get_kind, wp_bind. rewrite (kc_kind ls _ _ _ _ _ _ _ H). kred. apply wp_ret.
  unfold walk. apply wp_bind. apply w_step; [lia|apply at_fresh|]. cbn [w_x]. unfold gf_sw at 1. apply wp_bind, wp_get_kind. rewrite (kc_kind ls _ _ _ _ _ _ _ H). kred. cbv iota.
  destruct (kc_set h0 ls W0 C0 lo A l n KRaw (S ++ E ++ B) _ KFuncName Bs H) as [B2 H2]; [apply mem_kind_true; reflexivity|].
  apply wp_bind, wp_set_kind, wp_ret. cbn [fst snd s_heap]. pose proof (cursor_next ls _ _ _ _ _ H2) as Nx. cbn [fst] in Nx. rewrite Nx.
  set (s2 := mkSt (set_kind (s_heap s) (Some l) KFuncName) (s_buf s)) in *. set (A2 := A ++ [(l, (n, KFuncName))]).
  assert (H3 : Kc lo (A2 ++ S ++ E ++ B) (s_heap s2)) by (unfold A2; rewrite <- app_assoc; exact H2).
  fold (gfw f (pred f) (cursor (set_kind (s_heap s) (Some l) KFuncName) A2 (S ++ E ++ B)) (mkWl false None (true, false))).
  change (set_kind (s_heap s) (Some l) KFuncName) with (s_heap s2).
  eapply (gf_params h0 ls W0 C0 f lo (E ++ B) _ ps ps' rs rs' P R); [|exact Es|done|exact H3|lia|lia|done|apply at_fresh|].
  { destruct He; (destruct E as [|e E]; [done|]); cbn [map] in Ee; injection Ee as Ee _; (eexists; split; [cbn [app map head hd_error]; reflexivity|]); rewrite Ee; apply mem_kind_true; reflexivity. }
  intros S' s' w' fuel' Es' B' K' Hx' At' Lf'.
  assert (G : forall c0, last E = Some c0 -> base (s_heap s') /\ (exists S'0, map snd S'0 = ps' ++ rs' /\ Kc lo (A ++ (l, (n, KFuncName)) :: S'0 ++ E ++ B) (s_heap s')) /\ Some (fst c0) = fst <$> last E).
  { intros c0 ->. split; [done|]. split; [|done]. exists S'. split; [done|]. unfold A2 in K'. by rewrite <- app_assoc in K'. }
  destruct He as [u|sx cx u].
  - destruct E as [|c0 [|]]; [done| |done]. cbn [map] in Ee. injection Ee as Ee. cbn [app cursor length] in *. assert (K2 : Kc lo ((A2 ++ S') ++ c0 :: B) (s_heap s')) by (by rewrite <- app_assoc).
    eapply gf_newline; [exact K2|by rewrite Ee|lia|exact Hx'|exact At'|]. apply wp_ret. cbn [snd]. by apply G.
  - destruct E as [|c0 [|c1 [|c2 [|]]]]; [done..| |done]. cbn [map] in Ee. injection Ee as E0 E1 E2. cbn [app cursor length] in *. assert (K2 : Kc lo ((A2 ++ S') ++ c0 :: c1 :: c2 :: B) (s_heap s')) by (by rewrite <- app_assoc).
    eapply (gf_comment h0 ls W0 C0); [exact B'|exact K2|by rewrite E0|by rewrite E1|by rewrite E2|lia|lia|exact Hx'|exact At'|]. apply wp_ret. cbn [snd]. by apply G.
Qed.
Lemma line_scan lo A S (d : cell) B (s : st) : base (s_heap s) -> Kc lo (A ++ S ++ d :: B) (s_heap s) -> Forall (fun x : cell => knd x <> KParenL /\ knd x <> KNewLine) S -> knd d = KParenL \/ knd d = KNewLine ->
  is_line_function (cursor (s_heap s) A (S ++ d :: B)) s = Ok (s, kind_eqb (knd d) KParenL).
Proof.
  intros Bs H F Kd. unfold is_line_function, bind, scanM.
  set (fn := fun l (b : bool) => let k := kind_of (s_heap s) (Some l) in if kind_eqb k KParenL then (true, false) else if kind_eqb k KNewLine then (b, false) else (b, true)).
  assert (Efn : forall l b, fn l b = let k := kind_of (s_heap s) (Some l) in if kind_eqb k KParenL then (true, false) else if kind_eqb k KNewLine then (b, false) else (b, true)) by done.
  assert (Hk : forall x, x ∈ S ++ [d] -> kind_of (s_heap s) (Some (fst x)) = knd x).
  { intros x Hx. rewrite <- (kc_show ls _ _ _ x H); [done|]. rewrite elem_of_app in Hx. rewrite elem_of_list_singleton in Hx. rewrite !elem_of_app, elem_of_cons. tauto. }
  assert (G : scan_list fn (map fst (S ++ [d])) false = (kind_eqb (knd d) KParenL, Some (fst d))).
  { clear H. induction F as [|x S [N1 N2] F IH]; cbn [app map scan_list].
    - rewrite Efn. cbv zeta. rewrite (Hk d) by (by left). destruct Kd as [-> | ->]; reflexivity.
    - rewrite Efn. cbv zeta. rewrite (Hk x) by (by left). rewrite (proj2 (kind_eqb_false _ _) N1), (proj2 (kind_eqb_false _ _) N2). apply IH. intros; apply Hk. by right. }
  assert (H' : Kc lo (A ++ (S ++ [d]) ++ B) (s_heap s)) by (by rewrite <- app_assoc).
  pose proof (kc_stretch ls lo A (S ++ [d]) B _ H') as Sg. rewrite <- app_assoc in Sg. cbn [app] in Sg.
  pose proof (scan_seg (s_heap s) fn (map fst (S ++ [d])) _ _ false Sg ltac:(by eapply kc_len)) as Es. rewrite G in Es. specialize (Es ltac:(done)).
  cbv beta. fold fn. rewrite Es. done.
Qed.
Definition fo_step (tg : list kind) (l : loc) (c : Z * Z * Z) : M (Z * Z * Z * bool) :=
  handle_hook (Some l) [] ;;; k <- get_kind (Some l) ; let c := count_step k c in ret (c, find_decide tg opt_outside k c).
Lemma out_squares tg ks : squares ks -> Forall (fun x => x ∉ tg /\ x ∉ [KParenL; KParenR; KCurlyL; KCurlyR]) ks -> KSquareL ∉ tg -> KSquareR ∉ tg ->
  forall lo A (P : list cell) B (s : st) q fuel Q, map snd (map snd P) = ks -> Kc lo (A ++ P ++ B) (s_heap s) -> length P <= fuel ->
  wp (iterM (fuel - length P) (fo_step tg) (cursor (s_heap s) (A ++ P) B) (0, 0, q)%Z) Q s ->
  wp (iterM fuel (fo_step tg) (cursor (s_heap s) A (P ++ B)) (0, 0, q)%Z) Q s.
Proof.
  intros Sq F N1 N2.
  assert (One : forall lo A (x : cell) R (s : st) q q' fuel Q, 1 <= fuel -> Kc lo (A ++ x :: R) (s_heap s) -> knd x ∉ tg -> count_step (knd x) (0, 0, q)%Z = (0, 0, q')%Z ->
    wp (iterM (fuel - 1) (fo_step tg) (cursor (s_heap s) (A ++ [x]) R) (0, 0, q')%Z) Q s -> wp (iterM fuel (fo_step tg) (Some (fst x)) (0, 0, q)%Z) Q s).
  { intros lo A x R s q q' fuel Q L H Nx E HQ. apply step_iterM; [lia|]. unfold fo_step at 1. apply wp_bind. apply (wp_ok _ tt _ _ s); [done|]. apply wp_bind, wp_get_kind. rewrite (kc_at ls _ _ _ _ _ H), E. apply wp_ret. cbn [fst snd].
    assert (Ed : find_decide tg opt_outside (knd x) (0, 0, q')%Z = true).
    { unfold find_decide. cbn [o_inP o_inC o_inS o_outP o_outC o_outS opt_outside o_rev andb negb]. rewrite contain_new, bool_decide_eq_false_2 by done. by destruct (q' =? 0)%Z. }
    rewrite Ed, (cursor_next ls _ _ _ _ _ H). by replace (pred fuel) with (fuel - 1) by lia. }
  induction Sq as [|k ks M1 M2 Sq IH|ks ks' Sq IH Sq' IH']; intros lo A P B s q fuel Q Ek H Lf HQ.
  - destruct P; [|done]. cbn [app length] in *. rewrite app_nil_r, Nat.sub_0_r in HQ. done.
  - destruct P as [|x P]; [done|]. cbn [map] in Ek. injection Ek as Ek1 Ek2. cbn [app cursor length] in *. apply Forall_cons in F as [[F1 F2] F].
    apply (One lo A x (P ++ B) s q q); [lia|done|by rewrite Ek1| |].
    { rewrite Ek1. unfold count_step. rewrite (kind_elem k KParenL _ F2), (kind_elem k KCurlyL _ F2), (kind_elem k KParenR _ F2), (kind_elem k KCurlyR _ F2) by reflexivity.
      rewrite (proj2 (kind_eqb_false _ _) M1), (proj2 (kind_eqb_false _ _) M2). done. }
    apply (IH F lo); [done|by rewrite <- app_assoc|lia|]. rewrite <- app_assoc. cbn [app]. by replace (fuel - 1 - length P) with (fuel - Datatypes.S (length P)) by lia.
  - destruct P as [|x P]; [done|]. cbn [map] in Ek. injection Ek as Ek1 Ek2. rewrite map_map in Ek2. apply map_eq_app in Ek2 as (P1 & P2 & -> & E1 & E2). destruct P2 as [|y P2]; [done|].
    cbn [map] in E2. injection E2 as Ey E2. cbn [app cursor length] in *. rewrite app_length in *. cbn [length] in *. rewrite <- app_assoc in *. cbn [app] in *.
    apply Forall_cons in F as [_ F]. apply Forall_app in F as [F1 F2]. apply Forall_cons in F2 as [_ F2].
    apply (One lo A x (P1 ++ y :: P2 ++ B) s q (q + 1)%Z); [lia|done|by rewrite Ek1|by rewrite Ek1|].
    apply (IH F1 lo); [by rewrite map_map|by rewrite <- app_assoc|lia|].
    assert (H2 : Kc lo (((A ++ [x]) ++ P1) ++ y :: P2 ++ B) (s_heap s)) by (rewrite <- !app_assoc; exact H).
    cbn [cursor]. apply (One lo ((A ++ [x]) ++ P1) y (P2 ++ B) s (q + 1)%Z q); [lia|done|by rewrite Ey|rewrite Ey; unfold count_step; kred; f_equal; lia|].
    apply (IH' F2 lo); [by rewrite map_map|by rewrite <- !app_assoc in *|lia|]. rewrite <- !app_assoc. cbn [app]. by replace (fuel - 1 - length P1 - 1 - length P2) with (fuel - Datatypes.S (length P1 + Datatypes.S (length P2))) by lia.
Qed.
Lemma embedded_end lo A (x : cell) (P : list cell) (d : cell) B f (s : st) : base (s_heap s) -> Kc lo (A ++ x :: P ++ d :: B) (s_heap s) -> knd x ∉ [KNewLine; KCurlyL; KCurlyR; KParenL; KParenR; KSquareL; KSquareR] ->
  (forall k, k ∈ map snd (map snd P) -> k ∉ [KNewLine; KParenL; KParenR; KCurlyL; KCurlyR]) -> squares (map snd (map snd P)) -> knd d = KNewLine -> length P + 2 <= f ->
  wp (find_next f (Some (fst x)) [KNewLine; KCurlyR] opt_outside []) (fun r s' => r = Some (fst d) /\ s' = s) s.
Proof.
  intros Bs H Nx Hp Sq Kd Lf. unfold find_next. apply wp_bind.
  change (wp (iterM f (fo_step [KNewLine; KCurlyR]) (Some (fst x)) (0, 0, 0)%Z) (fun a s' => wp (ret a.2) (fun r s'' => r = Some (fst d) /\ s'' = s) s') s).
  apply step_iterM; [lia|]. unfold fo_step at 1. apply wp_bind. apply (wp_ok _ tt _ _ s); [done|]. apply wp_bind, wp_get_kind. rewrite (kc_at ls _ _ _ _ _ H). apply wp_ret. cbn [fst snd].
  assert (Ec : count_step (knd x) (0, 0, 0)%Z = (0, 0, 0)%Z).
  { unfold count_step. rewrite (kind_elem (knd x) KParenL _ Nx), (kind_elem (knd x) KCurlyL _ Nx), (kind_elem (knd x) KSquareL _ Nx), (kind_elem (knd x) KParenR _ Nx), (kind_elem (knd x) KCurlyR _ Nx), (kind_elem (knd x) KSquareR _ Nx) by reflexivity. done. }
  assert (Ed : find_decide [KNewLine; KCurlyR] opt_outside (knd x) (0, 0, 0)%Z = true).
  { unfold find_decide. cbn [o_inP o_inC o_inS o_outP o_outC o_outS opt_outside o_rev andb negb]. rewrite contain_new, bool_decide_eq_false_2; [done|].
    apply mem_kind_false. apply (kinds_out (knd x) _ [KNewLine; KCurlyR] Nx). reflexivity. }
  rewrite Ec, Ed, (cursor_next ls _ _ _ _ _ H).
  apply (out_squares [KNewLine; KCurlyR] _ Sq) with (lo := lo); [| | |done|by rewrite <- app_assoc|lia|].
  { apply Forall_forall. intros k Hk. specialize (Hp k Hk). split; intros Hin; apply Hp; rewrite !elem_of_cons in *; tauto. }
  { apply mem_kind_false; reflexivity. }
  { apply mem_kind_false; reflexivity. }
  assert (H2 : Kc lo (((A ++ [x]) ++ P) ++ d :: B) (s_heap s)) by (rewrite <- !app_assoc; exact H). cbn [cursor].
  apply step_iterM; [lia|]. unfold fo_step at 1. apply wp_bind. apply (wp_ok _ tt _ _ s); [done|]. apply wp_bind, wp_get_kind. rewrite (kc_at ls _ _ _ _ _ H2), Kd. apply wp_ret. cbn [fst snd].
  change (find_decide [KNewLine; KCurlyR] opt_outside KNewLine (count_step KNewLine (0, 0, 0)%Z)) with false. cbv iota. by apply wp_ret.
Qed.
Lemma methods_walk lo ts ts' : methods ts ts' -> forall (A S : list cell) (c : cell) (B : list cell) f fuel (w : wl unit) (s : st), map snd S = ts -> knd c = KCurlyR -> base (s_heap s) -> Kc lo (A ++ S ++ c :: B) (s_heap s) ->
  6 * length S + 15 <= f -> length S + 1 <= fuel -> at_node (cursor (s_heap s) A (S ++ c :: B)) w ->
  wp (iterM fuel (walk_body false [] (if_sw f [])) (cursor (s_heap s) A (S ++ c :: B)) w) (fun r => became lo A ts' (c :: B) (snd r)) s.
Proof.
  induction 1 as [|t k ts ts' Hk R IH|n ps ps' rs rs' e ts ts' P Rs He R IH|t k es u ts ts' Nk Hes Sq R IH]; intros A S c B f fuel w s Es Kcn Bs H Lf Lfu At.
  - apply map_eq_nil in Es as ->. cbn [app cursor length] in *. apply w_step; [lia|done|].
    apply (wp_ok _ (Stop, tt) _ _ s). { unfold if_sw, bind, get_kind, ret. cbn [res_bind]. rewrite (kc_at ls _ _ _ _ _ H), Kcn. reflexivity. }
    cbn [fst snd]. split; [done|]. split; [done|]. by exists [].
  - destruct S as [|[l [t' k']] S]; [done|]. cbn [map snd] in Es. injection Es as -> -> Es. cbn [app cursor length fst] in *. apply w_step; [lia|done|].
    apply (wp_ok _ (Cont, tt) _ _ s).
    { unfold if_sw, bind, get_kind, ret. cbn [res_bind]. rewrite (kc_kind ls _ _ _ _ _ _ _ H). rewrite !elem_of_cons in Hk. destruct Hk as [->|[->|[->|[->|[->|Hk]]]]]; [reflexivity..|by apply elem_of_nil in Hk]. }
    cbn [fst snd]. pose proof (cursor_next ls _ _ _ _ _ H) as Nx. cbn [fst] in Nx. rewrite Nx. eapply wp_mono.
    + apply (IH (A ++ [(l, (t, k))]) S c B f (pred fuel) (mkWl false None tt) s); [done|done|done|by rewrite <- app_assoc|lia|lia|apply at_fresh].
    + intros r s' Hw. by apply (became_more lo A [(l, (t, k))] [(t, k)] ts' (c :: B) _ s').
  - apply map_eq_app in Es as (S0 & S1 & -> & E0 & Es). apply map_eq_app in Es as (E & S2 & -> & EE & Es).
    destruct S0 as [|[l x] S0]; [done|]. cbn [map snd] in E0. injection E0 as -> E0. cbn [app cursor length fst] in *. rewrite !app_length in *. rewrite <- !app_assoc in *. cbn [app] in *.
    apply w_step; [lia|done|]. unfold if_sw at 1. apply wp_bind, wp_get_kind. rewrite (kc_kind ls _ _ _ _ _ _ _ H). kred. cbv iota. apply wp_bind.
    assert (exists lo1 t1 S0', S0 = (lo1, (t1, KParenL)) :: S0') as (lo1 & t1 & S0' & ->).
    { destruct P as [t1 q q' u1 P]. destruct S0 as [|[lo1 x1] S0]; [done|]. cbn [map snd app] in E0. injection E0 as -> _. eauto. }
    assert (Eb : is_line_function (Some l) s = Ok (s, true)).
    { pose proof (line_scan lo A [(l, (n, KRaw))] (lo1, (t1, KParenL)) (S0' ++ E ++ S2 ++ c :: B) s Bs H) as L. cbn [app cursor fst] in L. rewrite L; [done| |by left]. apply Forall_singleton. done. }
    apply (wp_ok _ _ _ _ s Eb). cbv iota. apply wp_bind.
    assert (Hlen : length (ps' ++ rs') <= length ((lo1, (t1, KParenL)) :: S0')).
    { rewrite <- (map_length snd (_ :: S0')), E0, !app_length. apply parens_length in P. apply outcome_length in Rs. lia. }
    eapply wp_mono; [apply (method_row lo A ((lo1, (t1, KParenL)) :: S0') E (l, (n, KRaw)) (S2 ++ c :: B) n ps ps' rs rs' e f s P Rs He); [done|done|done|done|done|cbn [length] in *; lia]|].
    intros r s1 (B1 & (S' & M1 & K1) & ->). cbv beta. apply wp_ret. cbn [fst snd] in *. pose proof (f_equal length M1) as Ls. rewrite map_length in Ls.
    pose proof (cursor_next ls _ _ _ _ _ K1) as Nx. cbn [fst] in Nx. rewrite Nx.
    destruct E as [|nl E _] using rev_ind; [subst e; by inversion He|]. rewrite last_snoc. cbn [fmap option_fmap option_map].
    assert (Kn : knd nl = KNewLine).
    { rewrite map_app in EE. cbn [map] in EE. destruct He as [u|sx cx u].
      all: apply (f_equal last) in EE; rewrite last_snoc in EE; injection EE as ->; done. }
    assert (K2 : Kc lo ((A ++ [(l, (n, KFuncName))]) ++ (S' ++ E) ++ nl :: S2 ++ c :: B) (s_heap s1)) by (rewrite <- !app_assoc in *; exact K1).
    assert (Ex : S' ++ (E ++ [nl]) ++ S2 ++ c :: B = (S' ++ E) ++ nl :: S2 ++ c :: B) by (rewrite <- !app_assoc; done). rewrite Ex.
    rewrite app_length in *. cbn [length] in *.
    eapply (w_jumped h0 ls W0 C0); [done|exact K2|rewrite app_length; lia|]. rewrite app_length. apply w_step; [lia|apply at_target|]. cbn [w_x].
    rewrite app_assoc in K2. apply (wp_ok _ (Cont, tt) _ _ s1).
    { unfold if_sw, bind, get_kind, ret. cbn [res_bind]. rewrite (kc_at ls _ _ _ _ _ K2), Kn. reflexivity. }
    cbn [fst snd]. rewrite (cursor_next ls _ _ _ _ _ K2).
    assert (Ea : ((A ++ [(l, (n, KFuncName))]) ++ S' ++ E) ++ [nl] = A ++ (((l, (n, KFuncName)) :: S') ++ E ++ [nl])) by (rewrite <- !app_assoc; done).
    assert (K3 : Kc lo ((((A ++ [(l, (n, KFuncName))]) ++ S' ++ E) ++ [nl]) ++ S2 ++ c :: B) (s_heap s1)) by (rewrite <- (app_assoc _ [_] (S2 ++ c :: B)); exact K2).
    rewrite Ea in *. eapply wp_mono.
    + apply (IH _ S2 c B f _ (mkWl false None tt) s1); [done|done|done|exact K3|lia|lia|apply at_fresh].
    + intros y s' Hw. assert (Em : map snd (((l, (n, KFuncName)) :: S') ++ E ++ [nl]) = ((n, KFuncName) :: ps' ++ rs') ++ e) by (rewrite map_app, EE; cbn [map snd]; by rewrite M1).
      pose proof (became_more lo A _ _ ts' (c :: B) _ s' Em Hw) as Hw'. cbn [app] in Hw'. rewrite <- !app_assoc in Hw'. exact Hw'.
  - destruct S as [|[l [t' k']] S]; [done|]. cbn [map snd] in Es. injection Es as -> -> Es. apply map_eq_app in Es as (P0 & S2 & -> & EP & Es). destruct S2 as [|[l2 [u' k2]] S2]; [done|]. cbn [map snd] in Es. injection Es as -> -> Es.
    cbn [app cursor length fst] in *. rewrite app_length in *. cbn [length] in *. rewrite <- app_assoc in *. cbn [app] in *. apply w_step; [lia|done|].
    unfold if_sw at 1. apply wp_bind, wp_get_kind. rewrite (kc_kind ls _ _ _ _ _ _ _ H). rewrite (kind_elem k KCurlyR _ Nk), (kinds_out k _ [KTab; KComment; KNewLine; KSpace; KCurlyL] Nk) by reflexivity. cbv iota.
    apply wp_bind.
    assert (Eb : is_line_function (Some l) s = Ok (s, false)).
    { pose proof (line_scan lo A ((l, (t, k)) :: P0) (l2, (u, KNewLine)) (S2 ++ c :: B) s Bs H) as L. cbn [app cursor fst] in L. rewrite L; [done| |by right]. apply Forall_cons. split; [cbn [snd]|].
      - split; intros ->; apply Nk; apply mem_kind_true; reflexivity.
      - apply Forall_forall. intros x Hx. specialize (Hes (knd x)). rewrite <- EP, map_map in Hes. specialize (Hes (elem_of_list_fmap_1 (fun c : cell => knd c) _ _ Hx)).
        split; intros E; apply Hes; rewrite E; apply mem_kind_true; reflexivity. }
    apply (wp_ok _ _ _ _ s Eb). cbv iota. set (k1 := if bool_decide (k = KRaw) then KTypeName else k).
    apply wp_bind. apply (wp_mono _ (fun _ s1 => base (s_heap s1) /\ Kc lo (A ++ (l, (t, k1)) :: P0 ++ (l2, (u, KNewLine)) :: S2 ++ c :: B) (s_heap s1))).
    { unfold k1. destruct (kind_eqb k KRaw) eqn:Ek.
      - apply kind_eqb_true in Ek as ->. rewrite bool_decide_eq_true_2 by done. apply wp_set_kind. cbn [s_heap]. apply (kc_set h0 ls W0 C0 lo A l t KRaw); [done|done|apply mem_kind_true; reflexivity].
      - apply kind_eqb_false in Ek. rewrite bool_decide_eq_false_2 by done. apply wp_ret. done. }
    intros [] s1 [B1 K1]. cbv beta. apply wp_bind.
    eapply wp_mono; [apply (embedded_end lo A (l, (t, k1)) P0 (l2, (u, KNewLine)) (S2 ++ c :: B) f s1 B1 K1); [cbn [snd]|by rewrite EP|by rewrite EP|done|lia]|].
    { unfold k1. case_bool_decide; [apply mem_kind_false; reflexivity|]. apply mem_kind_false. apply (kinds_out k _ [KNewLine; KCurlyL; KCurlyR; KParenL; KParenR; KSquareL; KSquareR] Nk). reflexivity. }
    intros r s1' [-> ->]. cbv beta. apply wp_ret. cbn [fst snd].
    pose proof (cursor_next ls _ _ _ _ _ K1) as Nx. cbn [fst] in Nx. rewrite Nx.
    assert (K2 : Kc lo ((A ++ [(l, (t, k1))]) ++ P0 ++ (l2, (u, KNewLine)) :: S2 ++ c :: B) (s_heap s1)) by (by rewrite <- app_assoc).
    change (Some l2) with (Some (fst ((l2, (u, KNewLine)) : cell))).
    eapply (w_jumped h0 ls W0 C0); [done|exact K2|lia|]. cbn [fst]. apply w_step; [lia|apply at_target|]. cbn [w_x].
    rewrite app_assoc in K2. apply (wp_ok _ (Cont, tt) _ _ s1).
    { unfold if_sw, bind, get_kind, ret. cbn [res_bind]. rewrite (kc_kind ls _ _ _ _ _ _ _ K2). reflexivity. }
    cbn [fst snd]. pose proof (cursor_next ls _ _ _ _ _ K2) as Nx2. cbn [fst] in Nx2. rewrite Nx2.
    assert (Ea : ((A ++ [(l, (t, k1))]) ++ P0) ++ [(l2, (u, KNewLine))] = A ++ ((l, (t, k1)) :: P0 ++ [(l2, (u, KNewLine))])) by (rewrite <- !app_assoc; done).
    assert (K3 : Kc lo ((((A ++ [(l, (t, k1))]) ++ P0) ++ [(l2, (u, KNewLine))]) ++ S2 ++ c :: B) (s_heap s1)) by (rewrite <- (app_assoc _ [_] (S2 ++ c :: B)); exact K2).
    rewrite Ea in *. eapply wp_mono.
    + apply (IH _ S2 c B f _ (mkWl false None tt) s1); [done|done|done|exact K3|lia|lia|apply at_fresh].
    + intros y s' Hw. assert (Em : map snd ((l, (t, k1)) :: P0 ++ [(l2, (u, KNewLine))]) = (t, k1) :: es ++ [(u, KNewLine)]) by (cbn [map snd]; by rewrite map_app, EP).
      pose proof (became_more lo A _ _ ts' (c :: B) _ s' Em Hw) as Hw'. cbn [app] in Hw'. rewrite <- app_assoc in Hw'. exact Hw'.
Qed.
Lemma interface_walk lo (A P S : list cell) (k o c : cell) (B : list cell) b b' f (s : st) : methods b b' -> map snd S = b -> KCurlyL ∉ map snd (map snd P) -> knd k = KInterface -> knd o = KCurlyL -> knd c = KCurlyR ->
  base (s_heap s) -> Kc lo (A ++ k :: P ++ o :: S ++ c :: B) (s_heap s) -> 6 * length S + 15 <= f -> length P + 1 < f ->
  wp (interface_run f (Some (fst k)) []) (became lo (A ++ k :: P ++ [o]) b' (c :: B)) s.
Proof.
  intros F Es Np Kk Ko Kcl Bs H Lf Lp. rewrite interface_run_eq. apply wp_bind.
  eapply wp_mono; [apply (find_to lo A (k :: P) o (S ++ c :: B) f [KCurlyL] s Bs H); [|by rewrite Ko; left|cbn [length]; lia]|].
  { apply Forall_cons. split; [rewrite Kk; apply mem_kind_false; reflexivity|]. apply Forall_forall. intros x Hx Hin. apply elem_of_list_singleton in Hin. apply Np. rewrite <- Hin. rewrite map_map. by apply elem_of_list_fmap_1 with (f := fun c : cell => knd c). }
  intros r s' [-> ->]. cbv beta. unfold walk. apply wp_bind.
  assert (H1 : Kc lo ((A ++ k :: P) ++ o :: S ++ c :: B) (s_heap s)) by (rewrite <- app_assoc; exact H).
  apply w_step; [lia|apply at_fresh|]. cbn [w_x]. apply (wp_ok _ (Cont, tt) _ _ s).
  { unfold if_sw, bind, get_kind, ret. cbn [res_bind]. rewrite (kc_at ls _ _ _ _ _ H1), Ko. reflexivity. }
  cbn [fst snd]. rewrite (cursor_next ls _ _ _ _ _ H1).
  assert (Ea : (A ++ k :: P) ++ [o] = A ++ k :: P ++ [o]) by (rewrite <- app_assoc; done). rewrite Ea.
  eapply wp_mono; [apply (methods_walk lo b b' F (A ++ k :: P ++ [o]) S c B f (pred f)); [done|done|done| |lia|lia|apply at_fresh]|].
  { rewrite <- Ea, <- app_assoc. exact H1. }
  intros r s' Hw. apply wp_ret. exact Hw.
Qed.

(** ** Named types *)
Notation bufd W := (map Some (map fst (W : list cell))).
Lemma buf_one lo A W (x : cell) R h : base h -> Kc lo (A ++ W ++ x :: R) h -> buf_hook (Some (fst x)) (mkSt h (bufd W)) = mkSt h (bufd (W ++ [x])).
Proof.
  intros Bs H. rewrite map_app. cbn [map]. apply hook_new. intros Hin. apply elem_of_list_fmap in Hin as (y & E & Hy). rewrite app_assoc in H.
  apply (kc_notin h0 ls W0 C0 lo (A ++ W) x R h y Bs H); [left; apply elem_of_app; by right|done].
Qed.
Lemma buf_again W (x : cell) h : buf_hook (Some (fst x)) (mkSt h (bufd (W ++ [x]))) = mkSt h (bufd (W ++ [x])).
Proof. rewrite map_app. cbn [map]. apply hook_same. Qed.
Definition skb (l : loc) (count : Z) : M (Z * bool) :=
  handle_hook (Some l) [buf_hook] ;;;
  k <- get_kind (Some l) ;
  if kind_eqb k KSquareL then ret (count + 1, true)%Z
  else if kind_eqb k KSquareR then ret ((count - 1)%Z, negb (count - 1 =? 0)%Z)
  else ret (count, true).
Lemma skip_buf lo A h ks : base h -> squares ks -> forall (W P R : list cell) count fuel Q, map snd (map snd P) = ks -> Kc lo (A ++ W ++ P ++ R) h -> length P <= fuel -> (1 <= count)%Z ->
  wp (iterM (fuel - length P) skb (cursor h (A ++ W ++ P) R) count) Q (mkSt h (bufd (W ++ P))) -> wp (iterM fuel skb (cursor h (A ++ W) (P ++ R)) count) Q (mkSt h (bufd W)).
Proof.
  intros Bs Sq.
  assert (One : forall (W : list cell) (x : cell) R c c' fuel Q, 1 <= fuel -> Kc lo (A ++ W ++ x :: R) h ->
    (if kind_eqb (knd x) KSquareL then (c + 1, true)%Z else if kind_eqb (knd x) KSquareR then ((c - 1)%Z, negb (c - 1 =? 0)%Z) else (c, true)) = (c', true) ->
    wp (iterM (fuel - 1) skb (cursor h (A ++ W ++ [x]) R) c') Q (mkSt h (bufd (W ++ [x]))) -> wp (iterM fuel skb (Some (fst x)) c) Q (mkSt h (bufd W))).
  { intros W x R c c' fuel Q L H E HQ. apply step_iterM; [lia|]. unfold skb at 1. apply wp_bind. unfold wp at 1, handle_hook. cbn [fold_left]. rewrite (buf_one lo A W x R h Bs H). apply wp_bind, wp_get_kind. cbn [s_heap].
    rewrite app_assoc in H. rewrite (kc_at ls _ _ _ _ _ H). set (kd := knd x) in *.
    replace (if kind_eqb kd KSquareL then ret ((c + 1)%Z, true) else if kind_eqb kd KSquareR then ret ((c - 1)%Z, negb (c - 1 =? 0)%Z) else ret (c, true)) with (@ret (Z * bool) (c', true)).
    2:{ rewrite <- E. destruct (kind_eqb kd KSquareL); [done|]. by destruct (kind_eqb kd KSquareR). }
    apply wp_ret. cbn [fst snd s_heap]. rewrite (cursor_next ls _ _ _ _ _ H), <- app_assoc. by replace (pred fuel) with (fuel - 1) by lia. }
  induction Sq as [|k ks N1 N2 Sq IH|ks ks' Sq IH Sq' IH']; intros W P R count fuel Q Ek H Lf Lc HQ.
  - destruct P as [|]; [|done]. cbn [app length] in *. by rewrite !app_nil_r, Nat.sub_0_r in HQ.
  - destruct P as [|x P]; [done|]. cbn [map] in Ek. injection Ek as Ek1 Ek2. cbn [app cursor length] in *. apply (One W x (P ++ R) count count); [lia|done| |].
    { rewrite Ek1, (proj2 (kind_eqb_false _ _) N1), (proj2 (kind_eqb_false _ _) N2). done. }
    apply (IH (W ++ [x]) P R); [done|by rewrite <- !app_assoc|lia|done|]. rewrite <- !app_assoc. cbn [app]. by replace (fuel - 1 - length P) with (fuel - Datatypes.S (length P)) by lia.
  - destruct P as [|x P]; [done|]. cbn [map] in Ek. injection Ek as Ek1 Ek2. rewrite map_map in Ek2. apply map_eq_app in Ek2 as (P1 & P2 & -> & E1 & E2). destruct P2 as [|y P2]; [done|].
    cbn [map] in E2. injection E2 as Ey E2. cbn [app cursor length] in *. rewrite app_length in *. cbn [length] in *. rewrite <- app_assoc in *. cbn [app] in *.
    apply (One W x (P1 ++ y :: P2 ++ R) count (count + 1)%Z); [lia|done|by rewrite Ek1|].
    apply (IH (W ++ [x]) P1 (y :: P2 ++ R)); [by rewrite map_map|by rewrite <- !app_assoc|lia|lia|].
    cbn [cursor]. apply (One ((W ++ [x]) ++ P1) y (P2 ++ R) (count + 1)%Z count); [lia|by rewrite <- !app_assoc| |].
    { rewrite Ey. kred. replace (count + 1 - 1)%Z with count by lia. rewrite (proj2 (Z.eqb_neq count 0)) by lia. done. }
    apply (IH' (((W ++ [x]) ++ P1) ++ [y]) P2 R); [by rewrite map_map|by rewrite <- !app_assoc|lia|done|]. rewrite <- !app_assoc in *. cbn [app] in *.
    by replace (fuel - 1 - length P1 - 1 - length P2) with (fuel - Datatypes.S (length P1 + Datatypes.S (length P2))) by lia.
Qed.
Lemma square_buf lo A h (W P R : list cell) (o c : cell) f : base h -> Kc lo (A ++ W ++ o :: P ++ c :: R) h -> knd o = KSquareL -> knd c = KSquareR -> squares (map snd (map snd P)) -> length P + 2 <= f ->
  wp (square_run f (Some (fst o)) [buf_hook]) (fun r s' => r = Some (fst c) /\ s' = mkSt h (bufd (W ++ o :: P ++ [c]))) (mkSt h (bufd W)).
Proof.
  intros Bs H Ko Kcl Sq Lf. assert (H0 : Kc lo ((A ++ W) ++ o :: P ++ c :: R) h) by (by rewrite <- app_assoc).
  unfold square_run, skip_nest. apply wp_bind, wp_get_kind. cbn [s_heap]. rewrite (kc_at ls _ _ _ _ _ H0), Ko. kred. apply wp_bind, wp_bind.
  unfold wp at 1, handle_hook. cbn [fold_left]. rewrite (buf_one lo A W o _ h Bs H). apply wp_bind. unfold find_next. apply wp_bind. apply step_iterM; [lia|]. apply wp_bind. unfold wp at 1, handle_hook. cbn [fold_left].
  rewrite buf_again. apply wp_bind, wp_get_kind, wp_ret. cbn [s_heap]. rewrite (kc_at ls _ _ _ _ _ H0), Ko. cbn [fst snd].
  change (find_decide [KSquareL] opt0 KSquareL (count_step KSquareL (0, 0, 0)%Z)) with false. cbv iota. apply wp_ret. cbn [snd]. apply wp_get_next. cbn [s_heap].
  rewrite (cursor_next ls _ _ _ _ _ H0), <- app_assoc. apply wp_bind.
  change (wp (iterM f skb (cursor h (A ++ W ++ [o]) (P ++ c :: R)) 1%Z) (fun a0 s' => wp (ret a0.2) (fun r s'' => r = Some (fst c) /\ s'' = mkSt h (bufd (W ++ o :: P ++ [c]))) s') (mkSt h (bufd (W ++ [o])))).
  apply (skip_buf lo A h _ Bs Sq (W ++ [o]) P (c :: R)); [done|by rewrite <- !app_assoc|lia|lia|]. cbn [cursor]. apply step_iterM; [lia|].
  unfold skb at 1. apply wp_bind. unfold wp at 1, handle_hook. cbn [fold_left].
  assert (H2 : Kc lo (A ++ ((W ++ [o]) ++ P) ++ c :: R) h) by (rewrite <- !app_assoc; exact H). rewrite (buf_one lo A _ c R h Bs H2). apply wp_bind, wp_get_kind. cbn [s_heap].
  rewrite app_assoc in H2. rewrite (kc_at ls _ _ _ _ _ H2), Kcl. kred. apply wp_ret. cbn [fst snd]. change (negb (1 - 1 =? 0)%Z) with false. cbv iota. apply wp_ret. cbn [snd]. split; [done|]. rewrite <- !app_assoc. done.
Qed.
Definition namep : list kind := [KNewLine; KComment; KParenL; KCurlyL; KFunc].
Lemma pa_cells lo A h f ks : base h -> squares ks -> Forall (fun x => x ∉ namep) ks -> forall (W P R : list cell) fuel (w : wl unit) Q, map snd (map snd P) = ks -> Kc lo (A ++ W ++ P ++ R) h -> length P <= fuel -> length P + 2 <= f ->
  at_node (cursor h (A ++ W) (P ++ R)) w ->
  (forall w', at_node (cursor h (A ++ W ++ P) R) w' -> wp (iterM (fuel - length P) (walk_body false [] (pa_sw f [])) (cursor h (A ++ W ++ P) R) w') Q (mkSt h (bufd (W ++ P)))) ->
  wp (iterM fuel (walk_body false [] (pa_sw f [])) (cursor h (A ++ W) (P ++ R)) w) Q (mkSt h (bufd W)).
Proof.
  intros Bs Sq. 
  assert (One : forall (W : list cell) (x : cell) R fuel (w : wl unit) Q, 1 <= fuel -> Kc lo (A ++ W ++ x :: R) h -> knd x ∉ namep -> knd x <> KSquareL -> at_node (Some (fst x)) w ->
    wp (iterM (fuel - 1) (walk_body false [] (pa_sw f [])) (cursor h (A ++ W ++ [x]) R) (mkWl false None tt)) Q (mkSt h (bufd (W ++ [x]))) -> wp (iterM fuel (walk_body false [] (pa_sw f [])) (Some (fst x)) w) Q (mkSt h (bufd W))).
  { intros W x R fuel w Q L H N1 N2 At HQ. apply w_step; [lia|done|]. assert (H' := H). rewrite app_assoc in H'.
    apply (wp_ok _ (Cont, tt) _ _ (mkSt h (bufd (W ++ [x])))).
    - unfold pa_sw, bind, get_kind, ret. cbn [res_bind s_heap]. rewrite (kc_at ls _ _ _ _ _ H'). rewrite contain_new, bool_decide_eq_false_2.
      2:{ intros Hin. apply elem_of_list_singleton in Hin. apply N1. rewrite Hin. apply mem_kind_true; reflexivity. }
      rewrite (kind_elem _ KParenL _ N1), (kind_elem _ KCurlyL _ N1), (kind_elem _ KFunc _ N1), (kind_elem _ KComment _ N1) by reflexivity. rewrite (proj2 (kind_eqb_false _ _) N2).
      cbn [res_bind]. rewrite (buf_one lo A W x R h Bs H). done.
    - cbn [fst snd s_heap]. rewrite (cursor_next ls _ _ _ _ _ H'), <- app_assoc. by replace (pred fuel) with (fuel - 1) by lia. }
  induction Sq as [|k ks N1 N2 Sq IH|ks ks' Sq IH Sq' IH']; intros F W P R fuel w Q Ek H Lf Lff At HQ.
  - destruct P as [|]; [|done]. cbn [app length] in *. rewrite !app_nil_r, Nat.sub_0_r in HQ. by apply HQ.
  - destruct P as [|x P]; [done|]. cbn [map] in Ek. injection Ek as Ek1 Ek2. apply Forall_cons in F as [F1 F]. cbn [app cursor length] in *. apply (One W x (P ++ R)); [lia|done|by rewrite Ek1|by rewrite Ek1|done|].
    pose proof (IH F (W ++ [x]) P R (fuel - 1) (mkWl false None tt) Q) as IH2. rewrite <- !app_assoc in IH2. cbn [app] in IH2. apply IH2; [done|done|lia|lia|apply at_fresh|].
    intros w' At'. replace (fuel - 1 - length P) with (fuel - Datatypes.S (length P)) by lia. by apply HQ.
  - destruct P as [|x P]; [done|]. cbn [map] in Ek. injection Ek as Ek1 Ek2. rewrite map_map in Ek2. apply map_eq_app in Ek2 as (P1 & P2 & -> & E1 & E2). destruct P2 as [|y P2]; [done|].
    cbn [map] in E2. injection E2 as Ey E2. apply Forall_cons in F as [_ F]. apply Forall_app in F as [_ F]. apply Forall_cons in F as [_ F]. cbn [app cursor length] in *. rewrite app_length in *. cbn [length] in *. rewrite <- app_assoc in *. cbn [app] in *.
    apply w_step; [lia|done|]. assert (H' := H). rewrite app_assoc in H'.
    unfold pa_sw at 1. apply wp_bind, wp_get_kind. cbn [s_heap app]. rewrite (kc_at ls _ _ _ _ _ H'), Ek1. kred. cbv iota. apply wp_bind.
    eapply wp_mono; [apply (square_buf lo A h W P1 (P2 ++ R) x y f Bs H); [done|done|rewrite map_map, E1; exact Sq|lia]|].
    intros r s' [-> ->]. cbv beta. apply wp_ret. cbn [fst snd s_heap]. rewrite (cursor_next ls _ _ _ _ _ H').
    assert (H2 : Kc lo (((A ++ W) ++ [x]) ++ P1 ++ y :: P2 ++ R) h) by (rewrite <- !app_assoc; exact H).
    pose proof (w_jumped h0 ls W0 C0 lo false (pa_sw f []) ((A ++ W) ++ [x]) P1 y (P2 ++ R) tt (pred fuel) Q (mkSt h (bufd (W ++ x :: P1 ++ [y]))) Bs H2) as WJ. cbn [s_heap] in WJ. apply WJ; [lia|].
    apply w_step; [lia|apply at_target|]. cbn [w_x].
    assert (H3 : Kc lo ((((A ++ W) ++ [x]) ++ P1) ++ y :: P2 ++ R) h) by (rewrite <- !app_assoc; exact H).
    apply (wp_ok _ (Cont, tt) _ _ (mkSt h (bufd (W ++ x :: P1 ++ [y])))).
    { unfold pa_sw, bind, get_kind, ret. cbn [res_bind s_heap]. rewrite (kc_at ls _ _ _ _ _ H3), Ey. kred. cbn [res_bind].
      rewrite (app_comm_cons P1 [y] x), (app_assoc W (x :: P1) [y]). rewrite buf_again. done. }
    cbn [fst snd s_heap]. rewrite (cursor_next ls _ _ _ _ _ H3).
    assert (Ea : (((A ++ W) ++ [x]) ++ P1) ++ [y] = A ++ W ++ x :: P1 ++ [y]) by (rewrite <- !app_assoc; done). rewrite Ea.
    pose proof (IH' F (W ++ x :: P1 ++ [y]) P2 R (pred (pred fuel - length P1)) (mkWl false None tt) Q) as IH2. rewrite <- !app_assoc in IH2. cbn [app] in IH2. rewrite <- !app_assoc in IH2. cbn [app] in IH2.
    apply IH2; [by rewrite map_map|done|lia|lia|apply at_fresh|]. intros w' At'.
    replace (pred (pred fuel - length P1) - length P2) with (fuel - Datatypes.S (length P1 + Datatypes.S (length P2))) by lia. by apply HQ.
Qed.
Lemma name_run lo A (v : cell) (W Cm R : list cell) (nl : cell) f (s : st) : base (s_heap s) -> Kc lo (A ++ v :: W ++ Cm ++ nl :: R) (s_heap s) -> knd v = KRaw -> knd nl = KNewLine -> squares (map snd (map snd W)) ->
  (forall x, x ∈ map snd (map snd W) -> x ∉ namep) -> Forall (fun c : cell => knd c = KComment) Cm -> length W + length Cm + 4 <= f ->
  wp (param_run f false KParamType [KNewLine] (Some (fst v)) []) (fun r s' => r = Some (fst nl) /\ base (s_heap s') /\ Kc lo (A ++ (fst v, merged (map snd (v :: W))) :: Cm ++ nl :: R) (s_heap s')) s.
Proof.
  intros Bs H Kv Kn Sq Hw Hc Lf. rewrite param_run_eq. apply wp_bind. unfold clear_buf, wp at 1. destruct s as [h b]. cbn [s_heap] in *. apply wp_bind. unfold walk. apply wp_bind.
  assert (Sq' : squares (map snd (map snd (v :: W)))) by (cbn [map]; rewrite Kv; by constructor).
  assert (F : Forall (fun x => x ∉ namep) (map snd (map snd (v :: W)))).
  { cbn [map]. rewrite Kv. apply Forall_cons. split; [apply mem_kind_false; reflexivity|]. apply Forall_forall. exact Hw. }
  pose proof (pa_cells lo A h f _ Bs Sq' F [] (v :: W) (Cm ++ nl :: R) f (mkWl false None tt)) as PA. cbn [app cursor map length] in PA. apply PA; [done|exact H|lia|lia|apply at_fresh|].
  intros w' At'. clear PA. cbn [map].
  assert (Fin : forall (D A' : list cell) fuel w1 (Q : wl unit * ptr -> st -> Prop), Forall (fun c : cell => knd c = KComment) D -> Kc lo (A' ++ D ++ nl :: R) h -> length D + 1 <= fuel -> at_node (cursor h A' (D ++ nl :: R)) w1 ->
    Q (mkWl false None tt, Some (fst nl)) (mkSt h (Some (fst v) :: bufd W)) ->
    wp (iterM fuel (walk_body false [] (pa_sw f [])) (cursor h A' (D ++ nl :: R)) w1) Q (mkSt h (Some (fst v) :: bufd W))).
  { induction D as [|d D IH]; intros A' fuel w1 Q Fd Hd Lfd At1 HQ; cbn [app cursor length] in *.
    - apply w_step; [lia|done|]. apply (wp_ok _ (Stop, tt) _ _ (mkSt h (Some (fst v) :: bufd W))); [|exact HQ].
      unfold pa_sw, bind, get_kind, ret. cbn [res_bind s_heap]. rewrite (kc_at ls _ _ _ _ _ Hd), Kn. reflexivity.
    - apply Forall_cons in Fd as [Kd Fd]. apply w_step; [lia|done|]. apply (wp_ok _ (Cont, tt) _ _ (mkSt h (Some (fst v) :: bufd W))).
      { unfold pa_sw, bind, get_kind, ret. cbn [res_bind s_heap]. rewrite (kc_at ls _ _ _ _ _ Hd), Kd. reflexivity. }
      cbn [fst snd s_heap]. rewrite (cursor_next ls _ _ _ _ _ Hd). apply IH; [done|by rewrite <- app_assoc|lia|apply at_fresh|done]. }
  assert (H2 : Kc lo ((A ++ v :: W) ++ Cm ++ nl :: R) h) by (rewrite <- app_assoc; exact H).
  apply Fin; [done|done|lia|done|].
  cbn [fst snd]. apply wp_ret. apply wp_bind. unfold end_buf. cbn [s_buf].
  destruct (kc_merge h0 ls W0 C0 lo A v W (Cm ++ nl :: R) h (Some (fst v) :: bufd W) Bs H ltac:(by destruct Cm)) as (h' & E & B' & H').
  eapply wp_ok; [exact E|]. apply wp_ret. done.
Qed.

(** ** Function types *)
Lemma gf_other f lo (A B : list cell) (c : cell) fuel w v (s : st) Q : Kc lo (A ++ c :: B) (s_heap s) -> 0 < fuel -> w_x w = v -> at_node (Some (fst c)) w ->
  knd c ∉ [KNewLine; KParenL; KCurlyL; KSquareL] -> (fst v = true \/ knd c <> KRaw) -> (v <> (true, true) \/ knd c <> KSpace) ->
  wp (gfw f (pred fuel) (cursor (s_heap s) (A ++ [c]) B) (mkWl false None v)) Q s -> wp (gfw f fuel (Some (fst c)) w) Q s.
Proof.
  intros H L Hx At Nk N1 N2 HQ. apply w_step; [done|done|]. rewrite Hx. apply (wp_ok _ (Cont, v) _ _ s).
  { destruct v as [b1 b2]. unfold gf_sw, bind, get_kind, ret. cbn [res_bind]. rewrite (kc_at ls _ _ _ _ _ H), contain_new, bool_decide_eq_false_2.
    2:{ intros Hin. apply elem_of_list_singleton in Hin. apply Nk. rewrite Hin. apply mem_kind_true; reflexivity. }
    rewrite (kind_elem _ KParenL _ Nk), (kind_elem _ KCurlyL _ Nk), (kind_elem _ KSquareL _ Nk) by reflexivity.
    destruct (kind_eqb (knd c) KComment); [done|]. destruct (kind_eqb (knd c) KRaw) eqn:E1.
    { apply kind_eqb_true in E1. destruct N1 as [N1|N1]; [|by destruct N1]. cbn [fst] in N1. by rewrite N1. }
    destruct (kind_eqb (knd c) KSpace) eqn:E2; [|done]. apply kind_eqb_true in E2. destruct N2 as [N2|N2]; [|by destruct N2]. destruct b1, b2; [by destruct N2|done..]. }
  cbn [fst snd]. by rewrite (cursor_next ls _ _ _ _ _ H).
Qed.
Lemma gf_stop f lo (A B : list cell) (c : cell) fuel w n (s : st) (Q : wl (bool * bool) * ptr -> st -> Prop) : Kc lo (A ++ c :: B) (s_heap s) -> knd c = KNewLine -> 0 < fuel -> w_x w = (n, true) -> at_node (Some (fst c)) w ->
  Q (mkWl false None (n, true), Some (fst c)) s -> wp (gfw f fuel (Some (fst c)) w) Q s.
Proof.
  intros H Hk Lf Hx At HQ. apply w_step; [done|done|]. rewrite Hx. apply (wp_ok _ (Stop, (n, true)) _ _ s); [|done].
  unfold gf_sw, bind, get_kind, ret. cbn [res_bind]. rewrite (kc_at ls _ _ _ _ _ H), Hk. reflexivity.
Qed.
Section result_walks.
Context (f lo : nat) (nl : cell) (B : list cell) (Kn : knd nl = KNewLine).
Notation finish A ts' Q := (forall S' s' w', map snd S' = ts' -> base (s_heap s') -> Kc lo (A ++ S' ++ nl :: B) (s_heap s') -> Q (w', Some (fst nl)) s').
Definition passes (b : bool) (ts ts' : list lexeme) : Prop :=
  forall (A S : list cell) fuel (w : wl (bool * bool)) (s : st) (Q : wl (bool * bool) * ptr -> st -> Prop), map snd S = ts -> base (s_heap s) -> Kc lo (A ++ S ++ nl :: B) (s_heap s) ->
  6 * length S + 8 <= f -> length S + 3 <= fuel -> w_x w = (b, true) -> at_node (cursor (s_heap s) A (S ++ nl :: B)) w ->
  finish A ts' Q -> wp (gfw f fuel (cursor (s_heap s) A (S ++ nl :: B)) w) Q s.
Lemma passes_other b t k ts ts' : k ∉ [KNewLine; KParenL; KCurlyL; KSquareL] -> (b = true \/ k <> KRaw) -> (b = false \/ k <> KSpace) -> passes b ts ts' -> passes b ((t, k) :: ts) ((t, k) :: ts').
Proof.
  intros Nk N1 N2 IH A S fuel w s Q Es Bs H Lf Lfu Hx At HQ.
  destruct S as [|[l [t' k']] S]; [done|]. cbn [map snd] in Es. injection Es as -> -> Es. cbn [app cursor length] in *.
  eapply gf_other; [exact H|lia|exact Hx|done|done|done| |].
  { destruct N2 as [->|N2]; [left; by intros [=]|by right]. }
  apply (IH (A ++ [(l, (t, k))]) S); [done|done|by rewrite <- app_assoc|lia|lia|done|apply at_fresh|].
  intros S' s' w' E' B' H'. rewrite <- app_assoc in H'. apply (HQ ((l, (t, k)) :: S')); [by cbn [map snd]; rewrite E'|done|done].
Qed.
Lemma passes_square b t ps u ts ts' : squares (map snd ps) -> passes b ts ts' -> passes b ((t, KSquareL) :: ps ++ (u, KSquareR) :: ts) ((t, KSquareL) :: ps ++ (u, KSquareR) :: ts').
Proof.
  intros Sq IH A S fuel w s Q Es Bs H Lf Lfu Hx At HQ.
  assert (Ex : map snd S = ((t, KSquareL) :: ps ++ [(u, KSquareR)]) ++ ts) by (rewrite Es; cbn [app]; by rewrite <- app_assoc). clear Es.
  apply map_eq_app in Ex as (S1 & S2 & -> & E1 & E2). rewrite app_length in *. rewrite <- app_assoc in *.
  apply (gf_square h0 ls W0 C0 f lo (S2 ++ nl :: B) Q t ps u Sq A S1 fuel w b true); [done|done|done|lia|lia|done|done|].
  intros w1 Hx1 At1. apply (IH (A ++ S1) S2 _ w1 s); [done|done|by rewrite <- app_assoc|lia|lia|done|done|].
  intros S' s' w' E' B' H'. rewrite <- app_assoc in *.
  apply (HQ (S1 ++ S')); [|done|by rewrite <- app_assoc]. rewrite map_app, E1, E'. cbn [app]. by rewrite <- app_assoc.
Qed.
Lemma passes_list b ps ps' ts ts' : parens KParamName KParamType ps ps' -> passes b ts ts' -> passes b (ps ++ ts) (ps' ++ ts').
Proof.
  intros P IH A S fuel w s Q Es Bs H Lf Lfu Hx At HQ.
  apply map_eq_app in Es as (S1 & S2 & -> & E1 & E2). rewrite app_length in *. rewrite <- app_assoc in *.
  apply (gf_paren h0 ls W0 C0 f lo (S2 ++ nl :: B) Q ps ps' P A S1 fuel w b true); [done|done|done|lia|lia|done|done|].
  intros S1' s1 w1 E1' B1 H1 Hx1 At1. apply (IH (A ++ S1') S2 _ w1 s1); [done|done|by rewrite <- app_assoc|lia|lia|done|done|].
  intros S' s' w' E' B' H'. rewrite <- app_assoc in *.
  apply (HQ (S1' ++ S')); [|done|by rewrite <- app_assoc]. by rewrite map_app, E1', E'.
Qed.
Lemma passes_curly b t bd u ts ts' : nested KCurlyL KCurlyR (map snd bd) -> passes b ts ts' -> passes b ((t, KCurlyL) :: bd ++ (u, KCurlyR) :: ts) ((t, KCurlyL) :: bd ++ (u, KCurlyR) :: ts').
Proof.
  intros Ne IH A S fuel w s Q Es Bs H Lf Lfu Hx At HQ.
  destruct S as [|[l [t' k']] S]; [done|]. cbn [map snd] in Es. injection Es as -> -> Es. apply map_eq_app in Es as (S1 & S2 & -> & E1 & E2).
  destruct S2 as [|[l2 [t' k']] S2]; [done|]. cbn [map snd] in E2. injection E2 as -> -> E2. cbn [app cursor length] in *. rewrite app_length in *. cbn [length] in *. rewrite <- app_assoc in *. cbn [app] in *.
  eapply (gf_curly h0 ls W0 C0 f lo A S1 (S2 ++ nl :: B) (l, (t, KCurlyL)) (l2, (u, KCurlyR))); [done|exact H|done|done|by rewrite E1|lia|lia|exact Hx|done|].
  apply (IH (A ++ (l, (t, KCurlyL)) :: S1 ++ [(l2, (u, KCurlyR))]) S2); [done|done|repeat (rewrite <- ?app_assoc; cbn [app]); exact H|lia|lia|done|apply at_fresh|].
  intros S' s' w' E' B' H'. apply (HQ ((l, (t, KCurlyL)) :: S1 ++ (l2, (u, KCurlyR)) :: S')); [|done|repeat (rewrite <- ?app_assoc in *; cbn [app] in *); exact H'].
  cbn [map snd]. rewrite map_app. cbn [map snd]. by rewrite E1, E'.
Qed.
Lemma passes_named ts ts' : named_result ts ts' -> passes true ts ts'.
Proof.
  induction 1 as [ts ts' e R He|t k ts ts' Nk Rs IH|t ps u ts ts' Sq Rs IH|t bd u ts ts' Ne Rs IH|ps ps' ts ts' P Rs IH].
  - intros A S fuel w s Q Es Bs H Lf Lfu Hx At HQ. apply map_eq_app in Es as (S1 & E & -> & E1 & E2). rewrite app_length in *. rewrite <- app_assoc in *.
    assert (Le : line_end (map snd (E ++ [nl]))).
    { rewrite map_app, E2. cbn [map]. destruct nl as [ln [tn kn]]. cbn [snd] in *. subst kn. destruct He as [->|(sx & c & ->)]; constructor. }
    assert (En : E ++ nl :: B = (E ++ [nl]) ++ B) by (by rewrite <- app_assoc). rewrite En in *.
    apply (results_walk h0 ls W0 C0 f lo ((E ++ [nl]) ++ B) Q ts ts' R (line_ends _ _ Le) A S1 fuel w s); [done|done|done|lia|lia|done|done|].
    intros S' s' w' fuel' E' B' H' Hx' At' Lf'. rewrite app_assoc in H'. eapply (gf_line h0 ls W0 C0); [done|exact H'|done|lia|lia|done|done|].
    intros c Hc. rewrite last_snoc in Hc. injection Hc as <-. apply (HQ (S' ++ E)); [by rewrite map_app, E', E2|done|]. repeat (rewrite <- ?app_assoc in *; cbn [app] in *). exact H'.
  - apply passes_other; [|by left| |done]; rewrite !elem_of_cons in *.
    + intros [?|[?|[?|[?|X]]]]; [apply Nk; tauto..|by apply elem_of_nil in X].
    + right. intros ->. apply Nk. tauto.
  - by apply passes_square.
  - by apply passes_curly.
  - by apply passes_list.
Qed.
Lemma passes_type ts ts' : type_results ts ts' -> passes false ts ts'.
Proof.
  induction 1 as [|t k ts ts' Nk Rs IH|t ps u ts ts' Sq Rs IH|t bd u ts ts' Ne Rs IH|ps ps' ts ts' P Rs IH|n ts ts' Rs].
  - intros A S fuel w s Q Es Bs H Lf Lfu Hx At HQ. apply map_eq_nil in Es as ->. cbn [app cursor length] in *. eapply gf_stop; [exact H|done|lia|exact Hx|done|]. by apply (HQ []).
  - apply passes_other; [| |by left|done]; rewrite !elem_of_cons in *.
    + intros [?|[?|[?|[?|X]]]]; [apply Nk; tauto..|by apply elem_of_nil in X].
    + right. intros ->. apply Nk. tauto.
  - by apply passes_square.
  - by apply passes_curly.
  - by apply passes_list.
  - intros A S fuel w s Q Es Bs H Lf Lfu Hx At HQ. destruct S as [|[l [t' k']] S]; [done|]. cbn [map snd] in Es. injection Es as -> -> Es. cbn [app cursor length] in *.
    apply (gf_name h0 ls W0 C0 f lo l n A (S ++ nl :: B) fuel w true s Q Bs H); [lia|done|done|]. intros s1 B1 H1.
    apply (passes_named ts ts' Rs (A ++ [(l, (n, KFuncName))]) S); [done|done|by rewrite <- app_assoc|lia|lia|done|apply at_fresh|].
    intros S' s' w' E' B' H'. rewrite <- app_assoc in H'. apply (HQ ((l, (n, KFuncName)) :: S')); [by cbn [map snd]; rewrite E'|done|done].
Qed.
End result_walks.
Lemma func_type lo (A S B : list cell) (fc nl : cell) ps ps' r r' f (s : st) : parens KParamName KParamType ps ps' -> type_results r r' -> map snd S = ps ++ r -> knd fc = KFunc -> knd nl = KNewLine ->
  base (s_heap s) -> Kc lo (A ++ fc :: S ++ nl :: B) (s_heap s) -> 6 * length ls + 8 <= f ->
  wp (func_run f ff_n (Some (fst fc)) []) (became lo (A ++ [fc]) (ps' ++ r') (nl :: B)) s.
Proof.
  intros P Rs Es Kf Kn Bs H Lf. pose proof (kc_size h0 ls W0 C0 _ _ _ Bs H) as Lc. rewrite app_length in Lc. cbn [length] in Lc. rewrite app_length in Lc. cbn [length] in Lc.
  assert (Ff : from 0 (Some (fst fc))) by (apply (from_cell ls _ _ _ fc H); apply elem_of_app; right; by left).
  destruct f as [|f]; [lia|]. rewrite func_run_eq. cbn [ff_param ff_iface ff_lead ff_n]. apply wp_bind.
  eapply wp_mono; [apply (is_temp_ok h0 ls 0); [done|done|lia]|]. intros tmp s' ->. cbv beta.
  assert (G : wp (general_func f (Some (fst fc)) [KNewLine] []) (became lo (A ++ [fc]) (ps' ++ r') (nl :: B)) s).
  { destruct f as [|f]; [lia|]. rewrite general_func_eq. apply wp_bind, wp_get_kind. rewrite (kc_at ls _ _ _ _ _ H), Kf. kred. cbv iota. apply wp_bind, wp_bind. apply (wp_ok _ tt _ _ s); [done|].
    apply wp_get_next. rewrite (cursor_next ls _ _ _ _ _ H). apply map_eq_app in Es as (S1 & S2 & -> & E1 & E2). rewrite app_length in *. rewrite <- app_assoc in *. unfold walk. apply wp_bind.
    change (wp (gfw f f (cursor (s_heap s) (A ++ [fc]) (S1 ++ S2 ++ nl :: B)) (mkWl false None (false, false))) (fun a s' => wp (ret a.2) (became lo (A ++ [fc]) (ps' ++ r') (nl :: B)) s') s).
    apply (gf_paren h0 ls W0 C0 f lo (S2 ++ nl :: B) _ ps ps' P (A ++ [fc]) S1 f _ false false); [done|done|by rewrite <- app_assoc|lia|lia|done|apply at_fresh|].
    intros S1' s1 w1 E1' B1 H1 Hx1 At1.
    apply (passes_type f lo nl B Kn r r' Rs ((A ++ [fc]) ++ S1') S2 _ w1 s1); [done|done|by rewrite <- !app_assoc in *|lia|lia|done|done|].
    intros S2' s2 w2 E2' B2 H2. apply wp_ret. cbn [snd]. split; [done|]. split; [done|]. exists (S1' ++ S2'). rewrite map_app, E1', E2'. split; [by rewrite <- !app_assoc in *|done]. }
  destruct tmp; [exact G|].
  unfold fr_main, walk. apply wp_bind. cbn [ff_notmethod ff_n]. apply w_step; [lia|apply at_fresh|]. cbn [w_x].
  unfold fr_sw at 1. apply wp_bind, wp_get_kind. rewrite (kc_at ls _ _ _ _ _ H), Kf. cbn [fst snd negb]. kred. cbv iota. apply wp_bind.
  eapply wp_mono; [exact G|]. intros r0 s1 (-> & B1 & S' & K1 & M1). cbv beta. apply wp_ret. cbn [fst snd cursor].
  assert (K2 : Kc lo (A ++ fc :: S' ++ nl :: B) (s_heap s1)) by (rewrite <- app_assoc in K1; exact K1).
  pose proof (kc_size h0 ls W0 C0 _ _ _ B1 K2) as Lc2. rewrite app_length in Lc2. cbn [length] in Lc2. rewrite app_length in Lc2. cbn [length] in Lc2.
  rewrite (cursor_next ls _ _ _ _ _ K2). eapply (w_jumped h0 ls W0 C0); [done|exact K1|lia|]. apply w_step; [lia|apply at_target|]. cbn [w_x].
  apply (wp_ok _ (Stop, (true, false)) _ _ s1).
  { unfold fr_sw, bind, get_kind, ret. cbn [res_bind]. rewrite app_assoc in K1. rewrite (kc_at ls _ _ _ _ _ K1), Kn. reflexivity. }
  cbn [fst snd]. apply wp_ret. cbn [snd]. split; [done|]. split; [done|]. by exists S'.
Qed.

(** ** The walk over a type declaration *)
Notation tyw f fuel p w := (iterM fuel (walk_body true [] (ty_sw f [])) p w).
Lemma t_step f l x fuel Q (s : st) : 0 < fuel ->
  wp (ty_sw f [] l x) (fun ax s' => match fst ax with
    | Stop => Q (mkWl false None (snd ax), Some l) s'
    | Cont => wp (tyw f (pred fuel) (next_of (s_heap s') (Some l)) (mkWl false None (snd ax))) Q s'
    | Jump p => wp (tyw f (pred fuel) (next_of (s_heap s') (Some l)) (mkWl (ptr_eqb p None) p (snd ax))) Q s' end) s ->
  wp (tyw f fuel (Some l) (mkWl false None x)) Q s.
Proof.
  intros L H. apply step_iterM; [done|]. apply wb_run. eapply wp_mono; [exact H|]. intros ax s'. cbv beta. destruct (fst ax); cbn [fst snd]; intros H'; exact H'.
Qed.
Lemma t_target f l x fuel Q (s : st) : 0 < fuel -> wp (tyw f (pred fuel) (next_of (s_heap s) (Some l)) (mkWl false None x)) Q s -> wp (tyw f fuel (Some l) (mkWl false (Some l) x)) Q s.
Proof.
  intros L H. apply step_iterM; [done|]. apply (wp_ok _ (mkWl false None x, true) _ _ s); [|exact H].
  unfold walk_body, bind, handle_hook, ret. cbn [fold_left w_skip w_jump w_x res_bind]. change (ptr_eqb (Some l) None) with false. rewrite (proj2 (ptr_eqb_true _ _) eq_refl). reflexivity.
Qed.
(** After a jump over [S] to [c]. *)
Lemma t_jump lo f (A S B : list cell) (k c : cell) x fuel Q (s : st) : base (s_heap s) -> Kc lo (A ++ k :: S ++ c :: B) (s_heap s) -> length S < fuel ->
  wp (tyw f (pred (fuel - length S)) (cursor (s_heap s) (A ++ k :: S ++ [c]) B) (mkWl false None x)) Q s ->
  wp (tyw f fuel (next_of (s_heap s) (Some (fst k))) (mkWl (ptr_eqb (Some (fst c)) None) (Some (fst c)) x)) Q s.
Proof.
  intros Bs H L HQ. rewrite (cursor_next ls _ _ _ _ _ H). assert (H1 : Kc lo ((A ++ [k]) ++ S ++ c :: B) (s_heap s)) by (by rewrite <- app_assoc).
  eapply (w_jumped h0 ls W0 C0); [done|exact H1|lia|]. apply t_target; [lia|]. rewrite app_assoc in H1. rewrite (cursor_next ls _ _ _ _ _ H1).
  replace (((A ++ [k]) ++ S) ++ [c]) with (A ++ k :: S ++ [c]) by (rewrite <- !app_assoc; done). exact HQ.
Qed.
Definition typed_up (A : list cell) (ts' : list lexeme) (s' : st) : Prop :=
  base (s_heap s') /\ exists S', map snd S' = ts' /\ Kc (length ls) (A ++ S') (s_heap s').
Lemma typed_more A M M' ts' s' : map snd M = M' -> typed_up (A ++ M) ts' s' -> typed_up A (M' ++ ts') s'.
Proof. intros <- (B & S' & E & K). split; [done|]. exists (M ++ S'). rewrite map_app, E, app_assoc. done. Qed.
Lemma square_cells lo (A P B : list cell) (o c : cell) f (s : st) : base (s_heap s) -> Kc lo (A ++ o :: P ++ c :: B) (s_heap s) -> knd o = KSquareL -> knd c = KSquareR -> squares (map snd (map snd P)) -> length P + 2 <= f ->
  wp (square_run f (Some (fst o)) []) (fun r s' => r = Some (fst c) /\ s' = s) s.
Proof.
  intros Bs H Ko Kc1 Sq Lf. assert (H1 : Kc lo (A ++ (o :: P ++ [c]) ++ B) (s_heap s)) by (cbn [app]; by rewrite <- app_assoc).
  assert (H2 : Kc lo ((A ++ [o]) ++ P ++ c :: B) (s_heap s)) by (by rewrite <- app_assoc).
  assert (H3 : Kc lo ((A ++ o :: P) ++ c :: B) (s_heap s)) by (by rewrite <- app_assoc).
  pose proof (kc_stretch ls lo A (o :: P ++ [c]) B _ H1) as Sg. rewrite map_cons, map_app in Sg.
  eapply square_pure; [exact Sg| | | |].
  - by rewrite (kc_kinds ls _ _ _ _ _ H2).
  - by rewrite (kc_at ls _ _ _ _ _ H).
  - by rewrite (kc_at ls _ _ _ _ _ H3).
  - by rewrite map_length.
Qed.
Lemma expr_walk f ts ts' : texpr ts ts' -> 6 * length ls + 8 <= f -> forall (A S : list cell) fuel (s : st), map snd S = ts -> base (s_heap s) -> Kc (length ls) (A ++ S) (s_heap s) -> length ls < fuel + length A ->
  wp (tyw f fuel (cursor (s_heap s) A S) (mkWl false None (true, true))) (fun _ => typed_up A ts') s.
Proof.
  intros T Lf.
  assert (Sz : forall X (s : st), base (s_heap s) -> Kc (length ls) X (s_heap s) -> length X <= length ls) by (intros; by eapply kc_size).
  induction T as [|t k ts ts' Nk R IH|t ps u ts ts' Sq R IH|t pre u b b' v ts ts' Np F R IH|t pre u b b' v ts ts' Np F R IH|n w cs u ts ts' Hw Sq Hcs R IH|t ps ps' r r' u ts ts' P Rs R IH]; intros A S fuel s Es Bs H Lfu.
  - apply map_eq_nil in Es as ->. rewrite app_nil_r in H. pose proof (cursor_tail h0 ls _ _ _ Bs H) as F.
    assert (cursor (s_heap s) A [] = None) as ->.
    { destruct (cursor (s_heap s) A []) as [l|]; [|done]. destruct F as (j & Lj & Ej). apply lookup_lt_Some in Ej. lia. }
    destruct fuel; cbn [iterM]; apply wp_ret; (split; [done|]); exists []; by rewrite app_nil_r.
  - destruct S as [|[l [t' k']] S]; [done|]. cbn [map snd] in Es. injection Es as -> -> Es. pose proof (Sz _ _ Bs H) as L. rewrite app_length in L. cbn [length cursor fst] in *. apply t_step; [lia|].
    apply (wp_ok _ (Cont, (true, true)) _ _ s).
    { unfold ty_sw, bind, get_kind, ret. cbn [res_bind negb]. rewrite (kc_kind ls _ _ _ _ _ _ _ H). rewrite (kind_elem k KInterface _ Nk), (kind_elem k KStruct _ Nk), (kind_elem k KFunc _ Nk), (kind_elem k KRaw _ Nk), (kind_elem k KSquareL _ Nk) by reflexivity.
      by destruct (kind_eqb k KComment). }
    cbn [fst snd]. pose proof (cursor_next ls _ _ _ _ _ H) as Nx. cbn [fst] in Nx. rewrite Nx. eapply wp_mono.
    + apply (IH (A ++ [(l, (t, k))]) S (pred fuel) s); [done|done|by rewrite <- app_assoc|rewrite app_length; cbn [length]; lia].
    + intros r s' Hw. by apply (typed_more A [(l, (t, k))] [(t, k)] ts').
  - destruct S as [|[l [t' k']] S]; [done|]. cbn [map snd] in Es. injection Es as -> -> Es. apply map_eq_app in Es as (P & S2 & -> & EP & Es). destruct S2 as [|[l2 [u' k2]] S2]; [done|]. cbn [map snd] in Es. injection Es as -> -> Es.
    pose proof (Sz _ _ Bs H) as L. rewrite app_length in L. cbn [length cursor fst] in *. rewrite app_length in L. cbn [length] in L. apply t_step; [lia|].
    unfold ty_sw at 1. apply wp_bind, wp_get_kind. rewrite (kc_kind ls _ _ _ _ _ _ _ H). cbn [negb]. kred. cbv iota. apply wp_bind.
    eapply wp_mono; [apply (square_cells _ A P S2 (l, (t, KSquareL)) (l2, (u, KSquareR)) f s Bs H); [done|done|by rewrite EP|lia]|].
    intros r s' [-> ->]. cbv beta. apply wp_ret. cbn [fst snd].
    apply (t_jump _ f A P S2 (l, (t, KSquareL)) (l2, (u, KSquareR)) _ _ _ s Bs H); [lia|]. eapply wp_mono.
    + apply (IH (A ++ (l, (t, KSquareL)) :: P ++ [(l2, (u, KSquareR))]) S2 _ s); [done|done| |rewrite app_length; cbn [length]; rewrite app_length; cbn [length]; lia].
      rewrite <- app_assoc. cbn [app]. by rewrite <- app_assoc.
    + intros r s' Hw. assert (Em : map snd ((l, (t, KSquareL)) :: P ++ [(l2, (u, KSquareR))]) = (t, KSquareL) :: ps ++ [(u, KSquareR)]) by (cbn [map snd]; by rewrite map_app, EP).
      pose proof (typed_more A _ _ ts' s' Em Hw) as Hw'. cbn [app] in Hw'. rewrite <- app_assoc in Hw'. exact Hw'.
  - destruct S as [|[l [t' k']] S]; [done|]. cbn [map snd] in Es. injection Es as -> -> Es. apply map_eq_app in Es as (P & S2 & -> & EP & Es). destruct S2 as [|[l2 [u' k2]] S2]; [done|]. cbn [map snd] in Es. injection Es as -> -> Es.
    apply map_eq_app in Es as (Bd & S3 & -> & EB & Es). destruct S3 as [|[l3 [v' k3]] S3]; [done|]. cbn [map snd] in Es. injection Es as -> -> Es.
    pose proof (Sz _ _ Bs H) as L. rewrite app_length in L. cbn [length cursor fst] in *. rewrite app_length in L. cbn [length] in L. rewrite app_length in L. cbn [length] in L. apply t_step; [lia|].
    unfold ty_sw at 1. apply wp_bind, wp_get_kind. rewrite (kc_kind ls _ _ _ _ _ _ _ H). cbn [negb]. kred. cbv iota. apply wp_bind.
    eapply wp_mono; [apply (struct_walk (length ls) A P Bd (l, (t, KStruct)) (l2, (u, KCurlyL)) (l3, (v, KCurlyR)) S3 b b' f s F EB); [by rewrite EP|done|done|done|done|exact H|lia|lia]|].
    intros r s1 (-> & B1 & S' & K1 & M1 & M2). cbv beta. apply wp_ret. cbn [fst snd cursor]. pose proof (fst_length _ _ M2) as Ls.
    assert (K2 : Kc (length ls) (A ++ (l, (t, KStruct)) :: (P ++ (l2, (u, KCurlyL)) :: S') ++ (l3, (v, KCurlyR)) :: S3) (s_heap s1)).
    { rewrite <- !app_assoc in *. cbn [app] in *. rewrite <- !app_assoc in *. exact K1. }
    apply (t_jump _ f A (P ++ (l2, (u, KCurlyL)) :: S') S3 (l, (t, KStruct)) (l3, (v, KCurlyR)) _ _ _ s1 B1 K2); [rewrite app_length; cbn [length]; lia|]. rewrite app_length. cbn [length].
    pose proof (IH (A ++ (l, (t, KStruct)) :: (P ++ (l2, (u, KCurlyL)) :: S') ++ [(l3, (v, KCurlyR))]) S3 (pred (pred fuel - (length P + Datatypes.S (length S')))) s1) as IH2.
    eapply wp_mono; [apply IH2; [done|done| |]|].
    + rewrite <- app_assoc. cbn [app]. rewrite <- !app_assoc. cbn [app]. rewrite <- !app_assoc in *. exact K2.
    + rewrite !app_length. cbn [length]. rewrite !app_length. cbn [length]. lia.
    + intros r s' Hw.
      assert (Em : map snd ((l, (t, KStruct)) :: (P ++ (l2, (u, KCurlyL)) :: S') ++ [(l3, (v, KCurlyR))]) = (t, KStruct) :: pre ++ (u, KCurlyL) :: b' ++ [(v, KCurlyR)]).
      { cbn [map snd]. rewrite !map_app. cbn [map snd]. rewrite EP, M1. rewrite <- app_assoc. done. }
      pose proof (typed_more A _ _ ts' s' Em Hw) as Hw'. cbn [app] in Hw'. rewrite <- app_assoc in Hw'. cbn [app] in Hw'. rewrite <- app_assoc in Hw'. exact Hw'.
  - destruct S as [|[l [t' k']] S]; [done|]. cbn [map snd] in Es. injection Es as -> -> Es. apply map_eq_app in Es as (P & S2 & -> & EP & Es). destruct S2 as [|[l2 [u' k2]] S2]; [done|]. cbn [map snd] in Es. injection Es as -> -> Es.
    apply map_eq_app in Es as (Bd & S3 & -> & EB & Es). destruct S3 as [|[l3 [v' k3]] S3]; [done|]. cbn [map snd] in Es. injection Es as -> -> Es.
    pose proof (Sz _ _ Bs H) as L. rewrite app_length in L. cbn [length cursor fst] in *. rewrite app_length in L. cbn [length] in L. rewrite app_length in L. cbn [length] in L. apply t_step; [lia|].
    unfold ty_sw at 1. apply wp_bind, wp_get_kind. rewrite (kc_kind ls _ _ _ _ _ _ _ H). cbn [negb]. kred. cbv iota. apply wp_bind.
    eapply wp_mono; [apply (interface_walk (length ls) A P Bd (l, (t, KInterface)) (l2, (u, KCurlyL)) (l3, (v, KCurlyR)) S3 b b' f s F EB); [by rewrite EP|done|done|done|done|exact H|lia|lia]|].
    intros r s1 (-> & B1 & S' & K1 & M1). cbv beta. apply wp_ret. cbn [fst snd cursor].
    assert (K2 : Kc (length ls) (A ++ (l, (t, KInterface)) :: (P ++ (l2, (u, KCurlyL)) :: S') ++ (l3, (v, KCurlyR)) :: S3) (s_heap s1)).
    { rewrite <- !app_assoc in *. cbn [app] in *. rewrite <- !app_assoc in *. exact K1. }
    pose proof (Sz _ _ B1 K2) as L2. rewrite !app_length in L2. cbn [length] in L2. rewrite !app_length in L2. cbn [length] in L2.
    apply (t_jump _ f A (P ++ (l2, (u, KCurlyL)) :: S') S3 (l, (t, KInterface)) (l3, (v, KCurlyR)) _ _ _ s1 B1 K2); [rewrite app_length; cbn [length]; lia|]. rewrite app_length. cbn [length].
    pose proof (IH (A ++ (l, (t, KInterface)) :: (P ++ (l2, (u, KCurlyL)) :: S') ++ [(l3, (v, KCurlyR))]) S3 (pred (pred fuel - (length P + Datatypes.S (length S')))) s1) as IH2.
    eapply wp_mono; [apply IH2; [done|done| |]|].
    + rewrite <- app_assoc. cbn [app]. rewrite <- !app_assoc. cbn [app]. rewrite <- !app_assoc in *. exact K2.
    + rewrite !app_length. cbn [length]. rewrite !app_length. cbn [length]. lia.
    + intros r s' Hw.
      assert (Em : map snd ((l, (t, KInterface)) :: (P ++ (l2, (u, KCurlyL)) :: S') ++ [(l3, (v, KCurlyR))]) = (t, KInterface) :: pre ++ (u, KCurlyL) :: b' ++ [(v, KCurlyR)]).
      { cbn [map snd]. rewrite !map_app. cbn [map snd]. rewrite EP, M1. rewrite <- app_assoc. done. }
      pose proof (typed_more A _ _ ts' s' Em Hw) as Hw'. cbn [app] in Hw'. rewrite <- app_assoc in Hw'. cbn [app] in Hw'. rewrite <- app_assoc in Hw'. exact Hw'.
  - destruct S as [|[l [t' k']] S]; [done|]. cbn [map snd] in Es. injection Es as -> -> Es. apply map_eq_app in Es as (P & S1 & -> & EP & Es). apply map_eq_app in Es as (Cm & S2 & -> & EC & Es). destruct S2 as [|[l2 [u' k2]] S2]; [done|]. cbn [map snd] in Es. injection Es as -> -> Es.
    pose proof (Sz _ _ Bs H) as L. rewrite app_length in L. cbn [length cursor fst] in *. rewrite app_length in L. cbn [length] in L. rewrite app_length in L. cbn [length] in L. apply t_step; [lia|].
    unfold ty_sw at 1. apply wp_bind, wp_get_kind. rewrite (kc_kind ls _ _ _ _ _ _ _ H). cbn [negb]. kred. cbv iota. apply wp_bind.
    eapply wp_mono; [apply (name_run _ A (l, (n, KRaw)) P Cm S2 (l2, (u, KNewLine)) f s Bs H); [done|done|by rewrite EP|by rewrite EP| |lia]|].
    { rewrite <- EC in Hcs. rewrite Forall_map in Hcs. exact Hcs. }
    intros r s1 (-> & B1 & K1). cbv beta. apply wp_ret. cbn [fst snd].
    set (m := (l, merged (map snd ((l, (n, KRaw)) :: P))) : cell).
    assert (K2 : Kc (length ls) (A ++ m :: Cm ++ (l2, (u, KNewLine)) :: S2) (s_heap s1)) by exact K1.
    change (Some l) with (Some (fst m)).
    apply (t_jump _ f A Cm S2 m (l2, (u, KNewLine)) _ _ _ s1 B1 K2); [lia|]. eapply wp_mono.
    + apply (IH (A ++ m :: Cm ++ [(l2, (u, KNewLine))]) S2 _ s1); [done|done| |rewrite app_length; cbn [length]; rewrite app_length; cbn [length]; lia]. rewrite <- app_assoc. cbn [app]. rewrite <- app_assoc. exact K1.
    + intros r s' Hw'. assert (Em : map snd (m :: Cm ++ [(l2, (u, KNewLine))]) = merged ((n, KRaw) :: w) :: cs ++ [(u, KNewLine)]) by (unfold m; cbn [map snd]; rewrite map_app, EP, EC; done).
      pose proof (typed_more A _ _ ts' s' Em Hw') as X. cbn [app] in X. rewrite <- app_assoc in X. exact X.
  - destruct S as [|[l [t' k']] S]; [done|]. cbn [map snd] in Es. injection Es as -> -> Es. rewrite (app_assoc ps r) in Es. apply map_eq_app in Es as (P0 & S2 & -> & EP & Es). destruct S2 as [|[l2 [u' k2]] S2]; [done|]. cbn [map snd] in Es. injection Es as -> -> Es.
    pose proof (Sz _ _ Bs H) as L. rewrite app_length in L. cbn [length cursor fst] in *. rewrite app_length in L. cbn [length] in L. apply t_step; [lia|].
    unfold ty_sw at 1. apply wp_bind, wp_get_kind. rewrite (kc_kind ls _ _ _ _ _ _ _ H). cbn [negb]. kred. cbv iota. apply wp_bind.
    eapply wp_mono; [apply (func_type (length ls) A P0 S2 (l, (t, KFunc)) (l2, (u, KNewLine)) ps ps' r r' f s P Rs EP); [done|done|done|exact H|lia]|].
    intros rr s1 (-> & B1 & S' & K1 & M1). cbv beta. apply wp_ret. cbn [fst snd cursor].
    assert (K2 : Kc (length ls) (A ++ (l, (t, KFunc)) :: S' ++ (l2, (u, KNewLine)) :: S2) (s_heap s1)) by (rewrite <- app_assoc in K1; exact K1).
    pose proof (Sz _ _ B1 K2) as L2. rewrite !app_length in L2. cbn [length] in L2. rewrite !app_length in L2. cbn [length] in L2.
    apply (t_jump _ f A S' S2 (l, (t, KFunc)) (l2, (u, KNewLine)) _ _ _ s1 B1 K2); [lia|]. eapply wp_mono.
    + apply (IH (A ++ (l, (t, KFunc)) :: S' ++ [(l2, (u, KNewLine))]) S2 _ s1); [done|done| |rewrite app_length; cbn [length]; rewrite app_length; cbn [length]; lia].
      rewrite <- app_assoc. cbn [app]. by rewrite <- app_assoc.
    + intros x s' Hw. assert (Em : map snd ((l, (t, KFunc)) :: S' ++ [(l2, (u, KNewLine))]) = (t, KFunc) :: (ps' ++ r') ++ [(u, KNewLine)]) by (cbn [map snd]; by rewrite map_app, M1).
      pose proof (typed_more A _ _ ts' s' Em Hw) as Hw'. cbn [app] in Hw'. rewrite <- !app_assoc in Hw'. exact Hw'.
Qed.
Lemma pre_walk f lo R Q : forall (P A : list cell) fuel (s : st), Forall (fun c : cell => knd c ∉ [KRaw; KCurlyR; KNewLine]) P -> base (s_heap s) -> Kc lo (A ++ P ++ R) (s_heap s) -> length P <= fuel ->
  wp (tyw f (fuel - length P) (cursor (s_heap s) (A ++ P) R) (mkWl false None (false, false))) Q s ->
  wp (tyw f fuel (cursor (s_heap s) A (P ++ R)) (mkWl false None (false, false))) Q s.
Proof.
  induction P as [|x P IH]; intros A fuel s F Bs H Lf HQ; cbn [app cursor length] in *; [by rewrite app_nil_r, Nat.sub_0_r in HQ|].
  apply Forall_cons in F as [F1 F]. apply t_step; [lia|]. apply (wp_ok _ (Cont, (false, false)) _ _ s).
  { unfold ty_sw, bind, get_kind, ret. cbn [res_bind negb]. rewrite (kc_at ls _ _ _ _ _ H). rewrite (kinds_out _ _ [KCurlyR; KNewLine] F1), (kind_elem _ KRaw _ F1) by reflexivity. done. }
  cbn [fst snd]. rewrite (cursor_next ls _ _ _ _ _ H). apply IH; [done|done|by rewrite <- app_assoc|lia|]. rewrite <- app_assoc. cbn [app].
  by replace (pred fuel - length P) with (fuel - Datatypes.S (length P)) by lia.
Qed.
Lemma type_walk f ts ts' (S : list cell) (s : st) : type_decl ts ts' -> map snd S = ts -> base (s_heap s) -> Kc (length ls) S (s_heap s) -> 6 * length ls + 8 <= f ->
  wp (type_run f (cursor (s_heap s) [] S) []) (fun _ => typed_up [] ts') s.
Proof.
  intros D Es Bs H Lf. pose proof (kc_size h0 ls W0 C0 _ _ _ Bs H) as L. rewrite type_run_eq. apply wp_bind, wp_get_kind.
  destruct D as [t pre n ps sp ts ts' Hp Tp T|t pre u ts Hp].
  - change ((t, KType) :: pre ++ (n, KRaw) :: ps ++ (sp, KSpace) :: ts) with (((t, KType) :: pre) ++ (n, KRaw) :: ps ++ (sp, KSpace) :: ts) in Es.
    apply map_eq_app in Es as (P & S2 & -> & EP & Es). destruct P as [|[l0 [t' k']] P]; [done|]. cbn [map snd] in EP. injection EP as -> -> EP.
    destruct S2 as [|[l1 [n' k1]] S2]; [done|]. cbn [map snd] in Es. injection Es as -> -> Es. apply map_eq_app in Es as (G & S3 & -> & EG & Es).
    destruct S3 as [|[l2 [s2 k2]] S3]; [done|]. cbn [map snd] in Es. injection Es as -> -> Es. cbn [app cursor fst] in *.
    assert (H0 : Kc (length ls) ([] ++ (l0, (t, KType)) :: P ++ (l1, (n, KRaw)) :: G ++ (l2, (sp, KSpace)) :: S3) (s_heap s)) by exact H.
    rewrite (kc_kind ls _ _ _ _ _ _ _ H0). kred. cbv iota. unfold walk. apply wp_bind. cbn [length] in L. rewrite app_length in L. cbn [length] in L. rewrite app_length in L. cbn [length] in L.
    pose proof (pre_walk f (length ls) ((l1, (n, KRaw)) :: G ++ (l2, (sp, KSpace)) :: S3) (fun a s' => wp (ret a.2) (fun _ => typed_up [] ((t, KType) :: pre ++ (n, KTypeName) :: ps ++ (sp, KSpace) :: ts')) s') ((l0, (t, KType)) :: P) [] f s) as PW.
    cbn [app cursor fst length] in PW. apply PW; [|done|exact H|lia|].
    { apply Forall_cons. split; [apply mem_kind_false; reflexivity|]. apply Forall_forall. intros x Hx. apply Hp. rewrite <- EP, map_map. by apply elem_of_list_fmap_1 with (f := fun c : cell => knd c). }
    clear PW. assert (H1 : Kc (length ls) (((l0, (t, KType)) :: P) ++ (l1, (n, KRaw)) :: G ++ (l2, (sp, KSpace)) :: S3) (s_heap s)) by exact H.
    apply t_step; [lia|]. unfold ty_sw at 1. apply wp_bind, wp_get_kind. rewrite (kc_kind ls _ _ _ _ _ _ _ H1). cbn [negb]. kred. cbv iota.
    destruct (kc_set h0 ls W0 C0 _ _ l1 n KRaw _ _ KTypeName Bs H1 ltac:(apply mem_kind_true; reflexivity)) as [B2 H2]. apply wp_bind, wp_set_kind, wp_ret. cbn [fst snd s_heap].
    remember (mkSt (set_kind (s_heap s) (Some l1) KTypeName) (s_buf s)) as s1 eqn:Es1. assert (Eh : set_kind (s_heap s) (Some l1) KTypeName = s_heap s1) by (by rewrite Es1). rewrite Eh in *. clear Es1 Eh.
    set (fu := pred (f - Datatypes.S (length P))).
    assert (Lfu : length ls < fu + (length P + 2)) by (unfold fu; lia). clearbody fu.
    pose proof (cursor_next ls _ _ _ _ _ H2) as Nx. cbn [fst] in Nx.
    (* from the space on *)
    assert (Fin : forall fuel, length ls < fuel + (length P + length G + 2) ->
      wp (tyw f fuel (Some l2) (mkWl false None (true, false))) (fun a s' => wp (ret a.2) (fun _ => typed_up [] ((t, KType) :: pre ++ (n, KTypeName) :: ps ++ (sp, KSpace) :: ts')) s') s1).
    { intros fuel Lfl. assert (H3 : Kc (length ls) ((((l0, (t, KType)) :: P) ++ (l1, (n, KTypeName)) :: G) ++ (l2, (sp, KSpace)) :: S3) (s_heap s1)) by (rewrite <- app_assoc; exact H2).
      apply t_step; [lia|]. apply (wp_ok _ (Cont, (true, true)) _ _ s1).
      { unfold ty_sw, bind, get_kind, ret. cbn [res_bind negb]. rewrite (kc_kind ls _ _ _ _ _ _ _ H3). reflexivity. }
      cbn [fst snd]. pose proof (cursor_next ls _ _ _ _ _ H3) as Nx3. cbn [fst] in Nx3. rewrite Nx3.
      eapply wp_mono; [apply (expr_walk f ts ts' T Lf _ S3 (pred fuel) s1); [done|done|by rewrite <- app_assoc|]|].
      - rewrite !app_length. cbn [length]. lia.
      - intros r s' Hw. apply wp_ret.
        assert (Em : map snd ((((l0, (t, KType)) :: P) ++ (l1, (n, KTypeName)) :: G) ++ [(l2, (sp, KSpace))]) = (t, KType) :: pre ++ (n, KTypeName) :: ps ++ [(sp, KSpace)]).
        { rewrite !map_app. cbn [map snd]. rewrite EP, EG, <- app_assoc. done. }
        pose proof (typed_more [] _ _ ts' s' Em Hw) as Hw'. cbn [app] in Hw'. rewrite <- app_assoc in Hw'. cbn [app] in Hw'. rewrite <- app_assoc in Hw'. exact Hw'. }
    rewrite Nx. destruct Tp as [|x0 qs y0 Sq].
    + apply map_eq_nil in EG as ->. cbn [app cursor fst length] in *. apply Fin. lia.
    + destruct G as [|[l3 [x' k3]] G]; [done|]. cbn [map snd] in EG. injection EG as -> -> EG. apply map_eq_app in EG as (G1 & G2 & -> & EG1 & EG2).
      destruct G2 as [|[l4 [y' k4]] [|]]; [done| |done]. cbn [map snd] in EG2. injection EG2 as -> ->. cbn [app cursor fst length] in *. rewrite !app_length in *. cbn [length] in *. rewrite <- !app_assoc in *. cbn [app] in *.
      assert (H3 : Kc (length ls) ((((l0, (t, KType)) :: P) ++ [(l1, (n, KTypeName))]) ++ (l3, (x0, KSquareL)) :: G1 ++ (l4, (y0, KSquareR)) :: (l2, (sp, KSpace)) :: S3) (s_heap s1)) by (rewrite <- app_assoc; exact H2).
      apply t_step; [lia|]. unfold ty_sw at 1. apply wp_bind, wp_get_kind. rewrite (kc_kind ls _ _ _ _ _ _ _ H3). cbn [negb]. kred. cbv iota. apply wp_bind.
      eapply wp_mono; [apply (square_cells _ _ G1 _ (l3, (x0, KSquareL)) (l4, (y0, KSquareR)) f s1 B2 H3); [done|done|by rewrite EG1|lia]|].
      intros r s' [-> ->]. cbv beta. apply wp_ret. cbn [fst snd].
      apply (t_jump _ f _ G1 _ (l3, (x0, KSquareL)) (l4, (y0, KSquareR)) _ _ _ s1 B2 H3); [lia|]. cbn [cursor fst]. apply Fin. lia.
  - change ((t, KType) :: pre ++ (u, KNewLine) :: ts) with (((t, KType) :: pre) ++ (u, KNewLine) :: ts) in Es.
    assert (Es' := Es). apply map_eq_app in Es as (P & S2 & -> & EP & Es). destruct P as [|[l0 [t' k']] P]; [done|]. cbn [map snd] in EP. injection EP as -> -> EP.
    destruct S2 as [|[l1 [n' k1]] S2]; [done|]. cbn [map snd] in Es. injection Es as -> -> Es. cbn [app cursor fst] in *.
    assert (H0 : Kc (length ls) ([] ++ (l0, (t, KType)) :: P ++ (l1, (u, KNewLine)) :: S2) (s_heap s)) by exact H.
    rewrite (kc_kind ls _ _ _ _ _ _ _ H0). kred. cbv iota. unfold walk. apply wp_bind. cbn [length] in L. rewrite app_length in L. cbn [length] in L.
    pose proof (pre_walk f (length ls) ((l1, (u, KNewLine)) :: S2) (fun a s' => wp (ret a.2) (fun _ => typed_up [] ((t, KType) :: pre ++ (u, KNewLine) :: ts)) s') ((l0, (t, KType)) :: P) [] f s) as PW.
    cbn [app cursor fst length] in PW. apply PW; [|done|exact H|lia|].
    { apply Forall_cons. split; [apply mem_kind_false; reflexivity|]. apply Forall_forall. intros x Hx. apply Hp. rewrite <- EP, map_map. by apply elem_of_list_fmap_1 with (f := fun c : cell => knd c). }
    clear PW. assert (H1 : Kc (length ls) (((l0, (t, KType)) :: P) ++ (l1, (u, KNewLine)) :: S2) (s_heap s)) by exact H.
    apply t_step; [lia|]. apply (wp_ok _ (Stop, (false, false)) _ _ s).
    { unfold ty_sw, bind, get_kind, ret. cbn [res_bind negb]. rewrite (kc_kind ls _ _ _ _ _ _ _ H1). reflexivity. }
    cbn [fst snd]. apply wp_ret. split; [done|]. exists ((l0, (t, KType)) :: P ++ (l1, (u, KNewLine)) :: S2). split; [exact Es'|exact H].
Qed.
End types.
