(** Refining a scope keeps its text. *)
From Verif Require Export PrefixProofs.

Section text.
Context (h0 : heap) (ls : list loc) (W0 : SpecNode.wf h0) (C0 : chain h0 ls).
Let ND : NoDup ls := c_nd h0 ls C0.
Let Hval := c_val h0 ls C0.
Let Hout := c_out h0 ls W0 C0.
Notation from := (from ls).
Notation base := (base h0 ls).
Notation N i := (length ls - i).
Notation kind0 l := (kind_of h0 (Some l)).

Definition anchors : list kind := KComment :: run_kinds.
Definition txt (h : heap) (xs : list loc) : str := concat (map (fun l => text_of h (Some l)) xs).
Lemma txt_app h xs ys : txt h (xs ++ ys) = txt h xs ++ txt h ys.
Proof. unfold txt. by rewrite map_app, concat_app. Qed.
Lemma txt_ext (h h' : heap) xs : (forall l, l ∈ xs -> text_of h' (Some l) = text_of h (Some l)) -> txt h' xs = txt h xs.
Proof. intros H. unfold txt. f_equal. apply map_ext_in. intros l Hl. apply H. by apply elem_of_list_In. Qed.

(** The chain still has the old text; nodes that left it are alone; comments,
    newlines, spaces and opening braces keep their kind and what follows them. *)
Record KT (h : heap) : Prop := {
  kt_chain : exists cur, chain h cur /\ head cur = head ls /\ cur `sublist_of` ls /\ txt h cur = txt h0 ls /\ (forall l, l ∈ ls -> l ∉ cur -> chain h [l]);
  kt_kind : forall l, l ∈ ls -> kind0 l ∈ anchors -> kind_of h (Some l) = kind0 l;
  kt_next : forall l, l ∈ ls -> kind0 l ∈ anchors -> next_of h (Some l) = next_of h0 (Some l) \/ next_of h (Some l) = None }.

Lemma KT_init : KT h0.
Proof.
  constructor; [|done|by left]. exists ls. split; [done|]. split; [done|]. split; [done|]. split; [done|]. intros l A B. by destruct (B A).
Qed.
Lemma refined_not_anchor k : k ∈ refined -> k ∉ anchors.
Proof.
  intros H. apply mem_kind_false. unfold refined in H. rewrite !elem_of_cons in H.
  destruct H as [->|[->|[->|[->|[->|[->|H]]]]]]; [reflexivity..|by apply elem_of_nil in H].
Qed.
Lemma KT_back h l : base h -> kind_of h (Some l) ∈ anchors -> kind0 l = kind_of h (Some l).
Proof. intros B H. destruct (b_kind _ _ _ B (Some l)) as [E|E]; [done|]. by apply refined_not_anchor in E. Qed.
Lemma KT_set h a k : base h -> KT h -> a ∈ ls -> kind_of h (Some a) ∉ anchors -> KT (set_kind h (Some a) k).
Proof.
  intros B [(cur & C & Hh & Sub & Tx & Iso) Kk Kn] Ha Na.
  assert (Va : valid h a) by (by eapply base_valid).
  assert (CK : forall zs, chain h zs -> chain (set_kind h (Some a) k) zs).
  { intros zs. apply seg_same_links; [apply length_set_kind|intros; apply links_set_kind]. }
  constructor.
  - exists cur. split; [by apply CK|]. split; [done|]. split; [done|]. split; [|intros l H1 H2; by apply CK, Iso].
    rewrite <- Tx. apply txt_ext. intros l _. apply text_set_kind.
  - intros l Hl Al. rewrite kind_set_kind by done. case_decide as D; [|by apply Kk]. exfalso. subst l. apply Na. rewrite (Kk a); done.
  - intros l Hl Al. rewrite (proj1 (links_set_kind _ _ _ _)). by apply Kn.
Qed.

Lemma merge_run (h : heap) k xs v ms ys b : SpecNode.wf h -> chain h (xs ++ v :: ms ++ ys) ->
  exists h', finish_combine k (map Some (v :: ms)) (mkSt h b) = Ok (mkSt h' b, tt) /\ chain h' (xs ++ v :: ys) /\
    (forall m, m ∈ ms -> chain h' [m]) /\ (forall zs, chain h zs -> v ∉ zs -> (forall m, m ∈ ms ++ ys -> m ∉ zs) -> chain h' zs) /\
    text_of h' (Some v) = text_of h (Some v) ++ txt h ms /\
    (forall x, x <> v -> kind_of h' (Some x) = kind_of h (Some x) /\ text_of h' (Some x) = text_of h (Some x)).
Proof.
  intros W C.
  assert (Vv : valid h v) by (eapply valid_chain; [exact C|apply elem_of_app; right; by left]).
  assert (L : next_of h (default None (last (map Some (v :: ms)))) = head ys).
  { rewrite map_cons. destruct ms as [|m ms _] using rev_ind.
    - cbn [map last default]. apply (chain_next h xs v ys C).
    - rewrite map_app. cbn [map]. rewrite app_comm_cons, last_snoc. cbn [default]. 
      apply (chain_next h (xs ++ v :: ms) m ys). rewrite <- app_assoc. cbn [app]. rewrite <- app_assoc in C. exact C. }
  unfold finish_combine. rewrite map_cons. cbn [s_heap s_buf]. rewrite map_cons in L. rewrite L.
  destruct (decide (ms = [])) as [->|NE].
  - cbn [map]. change (combine_next h (Some v) k []) with (Ok (set_kind h (Some v) k, Some v) : res (heap * ptr)). cbn [res_bind]. exists (set_kind h (Some v) k).
    assert (CK : forall zs, chain h zs -> chain (set_kind h (Some v) k) zs).
    { intros zs. apply seg_same_links; [apply length_set_kind|intros; apply links_set_kind]. }
    rewrite replace_next_noop.
    2:{ right. rewrite (proj1 (links_set_kind _ _ _ _)). by apply (chain_next h xs v ys). }
    split; [done|]. split; [by apply CK|]. split; [intros m Hm; by apply elem_of_nil in Hm|]. split; [intros zs Cz _ _; by apply CK|].
    split; [rewrite text_set_kind; unfold txt; by rewrite app_nil_r|].
    intros x Hx. rewrite kind_set_kind, text_set_kind by done. by rewrite decide_False.
  - destruct (combine_run false h k xs v ms ys W NE C) as (h1 & E1 & C1 & I1 & Y1 & F1 & T1).
    assert (LV : Forall (live h) (map Some ms)).
    { apply Forall_fmap, Forall_forall. intros m Hm. eapply valid_chain; [exact C|]. rewrite elem_of_app, elem_of_cons, elem_of_app. tauto. }
    destruct (combine_full false h v k (map Some ms) W Vv LV) as (h1' & E1' & W1 & _ & _ & K1 & _ & _ & S1 & _).
    rewrite E1 in E1'. injection E1' as <-.
    unfold combine_next. rewrite E1. cbn [res_bind].
    destruct (same_payload_replace_next h1 (Some v) (head ys)) as [_ SP].
    assert (Pay : forall x, x <> v -> kind_of (fst (replace_next h1 (Some v) (head ys))) (Some x) = kind_of h (Some x) /\
       text_of (fst (replace_next h1 (Some v) (head ys))) (Some x) = text_of h (Some x)).
    { intros x Hx. destruct (SP (Some x)) as (_ & -> & ->). destruct (S1 x Hx) as (_ & -> & ->). done. }
    assert (Tv : text_of (fst (replace_next h1 (Some v) (head ys))) (Some v) = text_of h (Some v) ++ txt h ms).
    { destruct (SP (Some v)) as (_ & _ & ->). rewrite T1. done. }
    destruct ys as [|y ys].
    + cbn [head] in *. assert (EN : replace_next h1 (Some v) None = (h1, (None, None))) by (apply replace_next_noop; right; by apply (chain_next h1 xs v [])).
      rewrite EN in *. cbn [fst] in *. exists h1. split; [done|]. split; [done|]. split; [done|]. split; [|done].
      intros zs Cz Hv Hm. apply F1; [done|done|]. intros m Hm'. apply Hm. rewrite elem_of_app. by left.
    + cbn [head] in *. pose proof (replace_next_cross h1 W1 v y xs [] [] ys C1 Y1) as RC.
      pose proof (chain_NoDup _ _ C) as NDC. apply NoDup_app in NDC as (_ & _ & NDC). apply NoDup_cons in NDC as [NDC _].
      specialize (RC ltac:(intros H; apply NDC; rewrite elem_of_app; by right)).
      destruct (replace_next h1 (Some v) (Some y)) as [h2 r] eqn:E2. destruct RC as (R1 & _ & _ & _ & R5). cbn [fst] in *.
      exists h2. split; [done|]. split; [done|]. split; [|split; [|done]].
      * intros m Hm. apply R5; [by apply I1|..]; rewrite elem_of_list_singleton; intros <-; [apply NDC; rewrite elem_of_app; by left|].
        assert (ND2 : NoDup (ms ++ y :: ys)). { pose proof (chain_NoDup _ _ C) as Q. apply NoDup_app in Q as (_ & _ & Q). by apply NoDup_cons in Q as [_ Q]. }
        apply NoDup_app in ND2 as (_ & ND2 & _). apply (ND2 y); [done|by left].
      * intros zs Cz Hv Hm. apply R5; [apply F1; [done|done|]; intros m Hm'; apply Hm; rewrite elem_of_app; by left|done|]. apply Hm. rewrite elem_of_app, elem_of_cons. tauto.
Qed.

Lemma chain_rest (h : heap) zs : forall xs v, chain h (xs ++ v :: zs) -> nseg h (Some v) (v :: zs) None.
Proof.
  induction zs as [|y zs IH]; intros xs v C; cbn [NodeChain.nseg]; (split; [done|]); rewrite (chain_next h xs v _ C); [done|].
  apply (IH (xs ++ [v])). by rewrite <- app_assoc.
Qed.
Lemma nseg_prefix (h : heap) vs : forall p r ws, nseg h p vs r -> nseg h p ws None -> exists ys, ws = vs ++ ys /\ nseg h r ys None.
Proof.
  induction vs as [|v vs IH]; intros p r ws; cbn [NodeChain.nseg].
  - intros -> H. by exists ws.
  - intros [-> Sg] Sw. destruct ws as [|w ws]; [done|]. destruct Sw as [[= <-] Sw]. destruct (IH _ _ _ Sg Sw) as (ys & -> & ?). by exists ys.
Qed.

Lemma KT_merge (h : heap) v ms r b h' b' : base h -> KT h -> v ∈ ls -> kind_of h (Some v) ∉ anchors -> nseg h (Some v) (v :: ms) r ->
  finish_combine KParamType (map Some (v :: ms)) (mkSt h b) = Ok (mkSt h' b', tt) -> KT h'.
Proof.
  intros B HK Hv Na Sg E. pose proof HK as [(cur & C & Hh & Sub & Tx & Iso) Kk Kn]. pose proof (b_wf _ _ _ B) as W.
  assert (Nv : forall l, l ∈ ls -> kind0 l ∈ anchors -> l <> v). { intros l Hl Al ->. apply Na. by rewrite (Kk v). }
  destruct (decide (v ∈ cur)) as [Hc|Hc].
  - pose proof Hc as (xs & zs & Ec)%elem_of_list_split. rewrite Ec in C.
    destruct (nseg_prefix h (v :: ms) (Some v) r (v :: zs) Sg (chain_rest h zs xs v C)) as (ys & Ey & _). injection Ey as Ey. subst zs.
    destruct (merge_run h KParamType xs v ms ys b W C) as (h2 & E2 & C2 & I2 & F2 & T2 & P2).
    rewrite E in E2. injection E2 as <- _.
    pose proof (chain_NoDup _ _ C) as NC.
    assert (Iso2 : forall l, l ∈ ls -> l ∉ xs ++ v :: ys -> chain h' [l]).
    { intros l Hl Hn. destruct (decide (l ∈ ms)) as [Hm|Hm]; [by apply I2|].
      assert (l ∉ cur). { rewrite Ec. rewrite !elem_of_app, !elem_of_cons, !elem_of_app in *. tauto. }
      apply F2; [by apply Iso|..].
      - rewrite elem_of_list_singleton. intros <-. done.
      - intros m Hm'. rewrite elem_of_list_singleton. intros ->. apply H. rewrite Ec, elem_of_app, elem_of_cons. tauto. }
    constructor.
    + exists (xs ++ v :: ys). split; [done|]. split; [|split; [|split; [|done]]].
      * rewrite <- Hh, Ec. by destruct xs.
      * etrans; [|exact Sub]. rewrite Ec. apply sublist_app; [done|]. apply sublist_skip. by apply sublist_inserts_l.
      * rewrite <- Tx, Ec, !txt_app. apply NoDup_app in NC as (_ & NC1 & NC). apply NoDup_cons in NC as [NC2 NC3].
        assert (Q1 : txt h' xs = txt h xs). { apply txt_ext. intros l Hl. apply P2. intros ->. apply (NC1 v Hl). by left. }
        assert (Q2 : txt h' ys = txt h ys). { apply txt_ext. intros l Hl. apply P2. intros ->. apply NC2. rewrite elem_of_app. by right. }
        rewrite Q1. f_equal. change (v :: ys) with ([v] ++ ys). change (v :: ms ++ ys) with ([v] ++ ms ++ ys). rewrite !txt_app, Q2.
        unfold txt at 1. cbn [map concat]. rewrite T2, app_nil_r. unfold txt at 3. cbn [map concat]. by rewrite app_nil_r, <- app_assoc.
    + intros l Hl Al. destruct (P2 l (Nv l Hl Al)) as [-> _]. by apply Kk.
    + intros l Hl Al. specialize (Nv l Hl Al). destruct (decide (l ∈ xs ++ v :: ys)) as [Hi|Hi].
      2:{ right. by apply (chain_next h' [] l []), Iso2. }
      assert (Q : next_of h' (Some l) = next_of h (Some l)); [|rewrite Q; by apply Kn].
      rewrite elem_of_app, elem_of_cons in Hi. destruct Hi as [Hi|[?|Hi]]; [|done|].
      * apply elem_of_list_split in Hi as (x1 & x2 & ->). rewrite <- app_assoc in C, C2. cbn [app] in C, C2.
        rewrite (chain_next h x1 l _ C), (chain_next h' x1 l _ C2). by destruct x2.
      * apply elem_of_list_split in Hi as (x1 & x2 & ->).
        rewrite (chain_next h (xs ++ v :: ms ++ x1) l x2), (chain_next h' (xs ++ v :: x1) l x2); [done|..].
        -- rewrite <- app_assoc. exact C2.
        -- rewrite <- app_assoc. cbn [app]. rewrite <- app_assoc. exact C.
  - pose proof (Iso v Hv Hc) as C1. assert (ms = []) as ->.
    { cbn [NodeChain.nseg] in Sg. destruct Sg as [_ Sg]. rewrite (chain_next h [] v [] C1) in Sg. destruct ms as [|m ms]; [done|by destruct Sg]. }
    destruct (merge_run h KParamType [] v [] [] b W C1) as (h2 & E2 & C2 & _ & F2 & _ & P2). rewrite E in E2. injection E2 as <- _.
    assert (F3 : forall zs, chain h zs -> v ∉ zs -> chain h' zs). { intros zs Cz Hz. apply F2; [done|done|]. intros m Hm. by apply elem_of_nil in Hm. }
    assert (Iso2 : forall l, l ∈ ls -> l ∉ cur -> chain h' [l]).
    { intros l Hl Hn. destruct (decide (l = v)) as [->|D]; [done|]. apply F3; [by apply Iso|]. rewrite elem_of_list_singleton. congruence. }
    assert (C3 : chain h' cur) by (by apply F3).
    constructor.
    + exists cur. split; [done|]. split; [done|]. split; [done|]. split; [|done]. rewrite <- Tx. apply txt_ext. intros l Hl. apply P2. by intros ->.
    + intros l Hl Al. destruct (P2 l (Nv l Hl Al)) as [-> _]. by apply Kk.
    + intros l Hl Al. destruct (decide (l ∈ cur)) as [Hi|Hi]; [|right; by apply (chain_next h' [] l []), Iso2].
      assert (Q : next_of h' (Some l) = next_of h (Some l)); [|rewrite Q; by apply Kn].
      apply elem_of_list_split in Hi as (x1 & x2 & ->). by rewrite (chain_next h x1 l x2), (chain_next h' x1 l x2).
Qed.

(** Every comment is last or followed by the end of a run. *)
Definition comments_ok : Prop := forall l, l ∈ ls -> kind0 l = KComment -> next_of h0 (Some l) = None \/ kind_of h0 (next_of h0 (Some l)) ∈ run_kinds.
Lemma KT_k okr h p k : base h -> KT h -> from 0 p -> k ∈ okk okr -> kind_of h p ∈ param_kinds -> KT (set_kind h p k).
Proof.
  intros B HK F _ Hk. destruct p as [a|]; [|done]. apply KT_set; [done|done|by eapply from_in|].
  apply mem_kind_false. unfold param_kinds in Hk. rewrite !elem_of_cons in Hk. destruct Hk as [->|[->|[->|H]]]; [reflexivity..|by apply elem_of_nil in H].
Qed.
Lemma filter_all {A} (P : A -> Prop) `{forall x, Decision (P x)} xs : Forall P xs -> filter P xs = xs.
Proof. induction 1 as [|x xs Hx _ IH]; [done|]. by rewrite filter_cons_True, IH. Qed.
Lemma KT_m (h : heap) p vs r h' b b' : comments_ok -> base h -> KT h -> from 0 p -> nseg h p vs r ->
  Forall (fun l => l ∈ ls /\ kind_of h (Some l) ∉ run_kinds) vs -> 
  finish_combine KParamType (map Some (filter (fun l => kind_of h (Some l) <> KComment) vs)) (mkSt h b) = Ok (mkSt h' b', tt) -> KT h'.
Proof.
  intros Hco B HK F Sg Fv E. set (P := fun l => kind_of h (Some l) <> KComment) in *.
  assert (G : exists ws us, vs = ws ++ us /\ filter P vs = ws /\ Forall P ws).
  { clear E. revert p F Sg. induction vs as [|v vs IH]; intros p F Sg; [by exists [], []|].
    apply Forall_cons in Fv as [[Hv Hr] Fv]. destruct Sg as [-> Sg]. rewrite filter_cons. case_decide as D.
    - destruct (IH Fv (next_of h (Some v))) as (ws & us & -> & Ef & Fw); [eapply from_mono; [|eapply base_next; [exact B|exact F]]; lia|done|].
      exists (v :: ws), us. split; [done|]. rewrite Ef. split; [done|]. by constructor.
    - exists [], (v :: vs). split; [done|]. split; [|constructor].
      assert (Kc : kind_of h (Some v) = KComment) by (unfold P in D; destruct (decide (kind_of h (Some v) = KComment)); [done|by destruct D]).
      assert (K0 : kind0 v = KComment). { rewrite <- Kc. apply KT_back; [done|]. rewrite Kc. apply mem_kind_true. reflexivity. }
      destruct vs as [|w vs]; [done|]. exfalso. destruct Sg as [Nw Sg]. apply Forall_cons in Fv as [[Hw Hrw] _].
      assert (Av : kind0 v ∈ anchors) by (rewrite K0; apply mem_kind_true; reflexivity).
      destruct (kt_next h HK v Hv Av) as [Q|Q]; [|congruence]. rewrite Q in Nw. destruct (Hco v Hv K0) as [?|Hk]; [congruence|].
      rewrite Nw in Hk. apply Hrw. rewrite (kt_kind h HK w Hw); [done|]. by right. }
  destruct G as (ws & us & Ev & Ef & Fw). rewrite Ef in E. destruct ws as [|v ws].
  - cbn in E. by injection E as <- _.
  - rewrite Ev in Sg. apply nseg_app in Sg as (m & Sg & _). pose proof Sg as [-> _].
    apply (KT_merge h v ws m b h' b'); [done|done|by eapply from_in| |done|done].
    unfold anchors. rewrite elem_of_cons. apply Forall_cons in Fw as [Fw _]. intros [?|H]; [done|].
    rewrite Ev in Fv. cbn [app] in Fv. apply Forall_cons in Fv as [[_ Fv] _]. done.
Qed.

(** ** Function scopes *)
Lemma KT_block okr lo f : comments_ok -> PR h0 ls okr lo KT any f /\ PP h0 ls okr lo KT any f /\ FRp h0 ls lo KT any f /\ FR h0 ls okr lo KT any f /\
  GF h0 ls lo KT any f /\ PF h0 ls lo KT any f /\ SR h0 ls lo KT any f.
Proof.
  intros Hco. apply (ResetTop.block h0 ls ND Hval Hout okr lo KT).
  - intros h p k B HK F Ok Pk. eapply KT_k; [done|done|eapply from_mono; [|exact F]; lia|done|done].
  - intros h p vs r h' b b' B HK F Sg Fv _ E _. eapply KT_m; [done|done|done|eapply from_mono; [|exact F]; lia|done|done|done].
Qed.
Lemma func_text f s : comments_ok -> base (s_heap s) -> KT (s_heap s) -> 6 * N 0 + 8 <= f ->
  wp (func_run f ff_l (head ls) []) (fun _ s' => base (s_heap s') /\ KT (s_heap s')) s.
Proof.
  intros Hco B HK Lf. destruct (KT_block true 0 f Hco) as (_ & _ & _ & IFR & _).
  eapply wp_mono; [apply (IFR _ 0)|]; [by left|done|done|lia| |done|intros r s' ((B' & K' & _) & _); done].
  destruct ls as [|a r] eqn:E; [done|]. by exists 0.
Qed.
End text.
