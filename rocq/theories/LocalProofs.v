(** What ParseScope returns, as a function of the token list alone. *)
From Verif Require Import SpecLocal LexSpecProofs LocalLex Reset ResetSpec Local LocalCanon P_Lex P_Scope.

Notation tok := (Z * str * kind)%type.
Definition tlook (t : tok) : str * kind := (snd (fst t), snd t).
Definition tline (t : tok) : Z := fst (fst t).
Lemma tok_ext (a b : tok) : tlook a = tlook b -> tline a = tline b -> a = b.
Proof. destruct a as [[? ?] ?], b as [[? ?] ?]. cbn. intros E ->. by injection E as -> ->. Qed.
Lemma look_pay h l : tlook (pay h l) = look h l. Proof. done. Qed.

Inductive tpieces : Z -> list tok -> list tok -> list (list tok) -> Prop :=
| tp_nil prev : tpieces prev [] [] []
| tp_inside prev t ts g gs : ~ (tline t <> prev /\ exists k, begins k (snd (fst t))) -> tpieces (tline t) ts g gs -> tpieces prev (t :: ts) (t :: g) gs
| tp_start prev t ts g gs : tline t <> prev -> (exists k, begins k (snd (fst t))) -> tpieces (tline t) ts g gs -> tpieces prev (t :: ts) [] ((t :: g) :: gs).
Lemma pieces_tpieces h prev ls g gs : pieces h prev ls g gs -> tpieces prev (map (pay h) ls) (map (pay h) g) (map (map (pay h)) gs).
Proof.
  induction 1 as [prev|prev l ls g gs N _ IH|prev l ls g gs [S1 S2] _ IH]; cbn [map]; [constructor|by apply tp_inside|by apply tp_start].
Qed.
Lemma tpieces_unique prev ts g gs : tpieces prev ts g gs -> forall g' gs', tpieces prev ts g' gs' -> g = g' /\ gs = gs'.
Proof.
  induction 1 as [prev|prev t ts g gs N _ IH|prev t ts g gs S1 S2 _ IH]; intros g' gs' H'.
  - by inversion H'.
  - inversion H' as [|? ? ? g2 gs2 ? T'|? ? ? g2 gs2 ? ? T']; subst; [|by destruct N]. by destruct (IH _ _ T') as [-> ->].
  - inversion H' as [|? ? ? g2 gs2 N T'|? ? ? g2 gs2 ? ? T']; subst; [by destruct N|]. by destruct (IH _ _ T') as [-> ->].
Qed.
Lemma tpieces_down d prev ts g gs : tpieces prev ts g gs -> tpieces (prev + d) (map (down_tok d) ts) (map (down_tok d) g) (map (map (down_tok d)) gs).
Proof.
  assert (Q : forall t prev, (tline (down_tok d t) <> prev + d <-> tline t <> prev)%Z) by (intros t p; unfold tline, down_tok; cbn; lia).
  induction 1 as [prev|prev t ts g gs N _ IH|prev t ts g gs S1 S2 _ IH]; cbn [map]; [constructor|..].
  - apply tp_inside; [|exact IH]. intros [H1 H2]. apply N. split; [by apply Q|done].
  - apply tp_start; [by apply Q|done|exact IH].
Qed.
Lemma tpieces_app prev ts1 g gs : tpieces prev ts1 g gs -> forall ts2 gs2,
  tpieces (match last ts1 with Some t => tline t | None => prev end) ts2 [] gs2 -> tpieces prev (ts1 ++ ts2) g (gs ++ gs2).
Proof.
  induction 1 as [prev|prev t ts g gs N _ IH|prev t ts g gs S1 S2 _ IH]; intros ts2 gs2 H2; [done|..]; cbn [app].
  - apply tp_inside; [done|]. apply IH. rewrite last_cons in H2. by destruct (last ts).
  - apply tp_start; [done..|]. apply IH. rewrite last_cons in H2. by destruct (last ts).
Qed.
(** Only the first token is compared with [prev]. *)
Lemma tpieces_prev prev prev' t ts g gs : (exists k, begins k (snd (fst t))) -> tline t <> prev -> tline t <> prev' ->
  tpieces prev (t :: ts) g gs -> g = [] /\ tpieces prev' (t :: ts) g gs.
Proof.
  intros B N N' H. inversion H; subst; [naive_solver|]. split; [done|]. by apply tp_start.
Qed.

(** A piece and what it looks like refined. *)
Definition refines (p cur : list tok) : Prop :=
  exists js qs, after (map tlook p) js qs /\ map tlook cur = qs /\ Forall2 (fun j c => tline <$> p !! j = Some (tline c)) js cur.
Lemma after_unique ps js qs js' qs' : after ps js qs -> after ps js' qs' -> js = js' /\ qs = qs'.
Proof.
  intros (s & r & E & C & Hd & _ & ->) (s' & r' & E' & C' & Hd' & _ & ->). rewrite E in E'. injection E' as <- <-.
  assert (js = js') as <-; [|done]. apply (nseg_det (s_heap s) (head js)).
  - destruct js; [done|]. exact (seg_nseg _ _ _ _ C).
  - rewrite Hd, <- Hd'. destruct js'; [done|]. exact (seg_nseg _ _ _ _ C').
Qed.
Lemma refines_unique p cur cur' : refines p cur -> refines p cur' -> cur = cur'.
Proof.
  intros (js & qs & A & M & F) (js' & qs' & A' & M' & F'). destruct (after_unique _ _ _ _ _ A A') as [<- <-]. rewrite <- M in M'. clear A A' M.
  revert cur' M' F'. induction F as [|j c js cur E F IH]; intros cur' M' F'; inversion F' as [|? c' ? cur2 E' F2]; subst; [done|].
  cbn [map] in M'. injection M' as M1 M2 M3. f_equal; [|by apply IH]. rewrite E in E'. injection E' as E'. apply tok_ext; [|done]. unfold tlook. congruence.
Qed.
Lemma refines_down d p cur : refines p cur -> refines (map (down_tok d) p) (map (down_tok d) cur).
Proof.
  intros (js & qs & A & M & F). exists js, qs. assert (L : forall l, map tlook (map (down_tok d) l) = map tlook l) by (intros l; rewrite map_map; apply map_ext; by intros [[? ?] ?]).
  rewrite !L. split; [done|]. split; [done|]. apply Forall2_fmap_r. eapply Forall2_impl; [exact F|]. intros j c E. cbn in *.
  rewrite list_lookup_fmap. destruct (p !! j) as [t|]; [|done]. cbn in *. injection E as E. f_equal. unfold tline, down_tok in *. cbn in *. lia.
Qed.
Lemma refined_view h h' g cur : SpecNode.wf h' -> refined_from h h' g -> chain h' cur -> head cur = head g ->
  refines (map (pay h) g) (map (pay h') cur).
Proof.
  intros W R C Hd. assert (Lk : map tlook (map (pay h) g) = map (look h) g) by (rewrite map_map; done).
  destruct (after_total (map (look h) g)) as (js & qs & A). exists js, qs. rewrite Lk. split; [done|].
  destruct (refined_after h h' g js qs cur W R A C Hd) as [E F]. split; [rewrite map_map; exact E|].
  apply Forall2_fmap_r. eapply Forall2_impl; [exact F|]. intros j l El. cbn. rewrite list_lookup_fmap, El. cbn.
  f_equal. unfold tline, pay. cbn. symmetry. exact (proj1 (proj1 (proj2 (refined_facts h h' g W R)) l (elem_of_list_lookup_2 _ _ _ El))).
Qed.

Definition tview (p : list tok) (v : scope_view) : Prop :=
  match p with
  | [] => False
  | t :: _ => fst v = ((tline t + 1)%Z, new_scope_kind (snd (fst t))) /\ refines p (snd v)
  end.
Lemma tview_unique p v v' : tview p v -> tview p v' -> v = v'.
Proof.
  destruct p as [|t p]; [done|]. intros [E R] [E' R']. destruct v as [a b], v' as [a' b']. cbn in *. rewrite E, E'. f_equal. by eapply refines_unique.
Qed.
Lemma tview_down d p v : tview p v -> tview (map (down_tok d) p) (down d v).
Proof.
  destruct p as [|t p]; [done|]. intros [E R]. destruct v as [[a b] c]. cbn in E, R. injection E as -> ->. split; [cbn; unfold tline; f_equal; cbn; lia|].
  by apply (refines_down d (t :: p)).
Qed.
Lemma parses_view ord h n text vs : any_order ord -> SpecNode.wf h -> parses_to ord h n text vs ->
  exists ts g gs, tokens text ts /\ tpieces (n - 1) ts g gs /\ Forall2 tview gs vs.
Proof.
  intros O W (h' & scs & E & F).
  destruct (C29_tokeniser_terminates ord h text O W) as (h1 & ls & Tk & _).
  destruct (parse_inv ord h n text h1 ls h' scs O W Tk E) as (h2 & g & gs & HP & -> & W1 & W' & SP & Ll & T & Cg & Cgs & O2 & O3 & R3).
  exists (map (pay h1) ls), (map (pay h1) g), (map (map (pay h1)) gs). split; [done|]. split; [by apply pieces_tpieces|].
  pose proof (pieces_nonempty _ _ _ _ _ HP) as NE. clear HP Cgs O3 E. revert vs F.
  induction gs as [|p gs IH]; intros vs F; inversion F as [|? v ? vs' V F']; subst; [constructor|]. cbn [map]. apply Forall_cons in R3 as [R3 R3']. apply Forall_cons in NE as [NE NE']. constructor; [|by apply IH]. clear IH F F'.
  destruct V as (cur & C & Hd & ->). destruct p as [|l p]; [done|]. cbn [map tview fst snd scope_of] in *. split; [done|].
  assert (Ep : map (pay h1) (l :: p) = map (pay h2) (l :: p)).
  { apply map_ext. intros x. unfold pay. destruct (proj2 SP (Some x)) as (-> & -> & ->). done. }
  change (refines (map (pay h1) (l :: p)) (map (pay h') cur)). rewrite Ep. by apply refined_view.
Qed.
Lemma parses_total ord h n text : any_order ord -> SpecNode.wf h -> exists vs, parses_to ord h n text vs.
Proof.
  intros O W. destruct (C29_tokeniser_terminates ord h text O W) as (h1 & ls & Tk & _).
  destruct (C37_parse_scope_terminates ord h n text O W) as (h' & scs & E & _).
  destruct (parse_inv ord h n text h1 ls h' scs O W Tk E) as (h2 & g & gs & HP & -> & W1 & W' & SP & Ll & T & Cg & Cgs & O2 & O3 & R3).
  pose proof (pieces_nonempty _ _ _ _ _ HP) as NE.
  assert (X : exists vs, Forall2 (viewed h') (map (scope_of h1) gs) vs); [|destruct X as [vs X]; by exists vs, h', (map (scope_of h1) gs)].
  clear -NE R3 W'. induction gs as [|p gs IH]; [exists []; constructor|]. apply Forall_cons in NE as [Np NE]. apply Forall_cons in R3 as [R R3].
  destruct (IH R3 NE) as [vs F]. destruct (refined_facts h2 h' p W' R) as ((cur & C & Hd & _) & _).
  eexists (_ :: vs). cbn [map]. constructor; [|exact F]. exists cur. split; [done|]. split; [|done]. destruct p; [done|]. exact Hd.
Qed.
Lemma parses_unique ord h ord' h' n text vs vs' : any_order ord -> SpecNode.wf h -> any_order ord' -> SpecNode.wf h' ->
  parses_to ord h n text vs -> parses_to ord' h' n text vs' -> vs = vs'.
Proof.
  intros O W O' W' P P'. apply parses_view in P as (ts & g & gs & T & TP & F); [|done|done]. apply parses_view in P' as (ts' & g' & gs' & T' & TP' & F'); [|done|done].
  rewrite (tokens_unique _ _ _ T' T) in *. destruct (tpieces_unique _ _ _ _ TP _ _ TP') as [_ <-]. clear -F F'.
  revert vs' F'. induction F as [|p v gs vs V F IH]; intros vs' F'; inversion F' as [|? v' ? vs2 V' F2]; subst; [done|].
  f_equal; [by eapply tview_unique|by apply IH].
Qed.
Lemma parses_app ordA hA ordB hB ordC hC n m A B va vb vc :
  any_order ordA -> SpecNode.wf hA -> any_order ordB -> SpecNode.wf hB -> any_order ordC -> SpecNode.wf hC ->
  complete A -> begins_scope B -> (m <= 0)%Z ->
  parses_to ordA hA n A va -> parses_to ordB hB m B vb -> parses_to ordC hC n (A ++ B) vc -> vc = va ++ map (down (count_nl A)) vb.
Proof.
  intros OA WA OB WB OC WC CA BB Nm PA PB PC.
  apply parses_view in PA as (ta & ga & gsa & TA & PA & FA); [|done|done].
  apply parses_view in PB as (tb & gb & gsb & TB & PB & FB); [|done|done].
  apply parses_view in PC as (tc & gc & gsc & TC & PC & FC); [|done|done].
  pose proof (tokens_app A B ta tb CA BB TA TB) as TC'. rewrite (tokens_unique _ _ _ TC TC') in *. clear tc TC TC'.
  destruct CA as (ta' & t & TA' & La & Et & _). rewrite (tokens_unique _ _ _ TA' TA) in *. clear ta' TA'.
  destruct BB as (tb' & u & us & TB' & -> & Bu & Wd). rewrite <- (tokens_unique _ _ _ TB' TB) in *. clear TB.
  (* lines of the tokens at the border *)
  assert (Lu : (0 <= tline u)%Z).
  { destruct u as [[mu tu] ku]. cbn [fst snd] in *. inversion TB' as [|? ? ? ? ? ? r ? b' st' ? T L Br S]; subst. unfold tline. cbn.
    destruct L as (A1 & A2 & A3).
    assert (N1 : tu <> $"(" /\ tu <> $"{").
    { split; intros ->; destruct (Wd [] _ _ eq_refl) as (w & Hw & _); [by left|by apply elem_of_nil in Hw|by right|by apply elem_of_nil in Hw]. }
    destruct (Z.le_gt_cases 0 mu) as [G|G]; [done|]. exfalso. pose proof (count_nl_nonneg tu).
    assert (Nc : ~ exists d, cut_off d tu) by (intros Hc; specialize (A1 Hc); lia). specialize (A3 Nc (proj1 N1) (proj2 N1)). lia. }
  assert (Lt : tline t = (count_nl A - 1)%Z).
  { apply last_Some in La as [ti ->]. unfold tokens in TA. destruct (scan_split ti 0 0 [] A [t] ltac:(constructor) TA) as (b' & st' & s2 & EA & _ & S).
    destruct t as [[mt tt'] kt]. cbn [fst snd] in Et. subst tt'. pose proof (scan_texts _ _ _ _ _ S) as E2. unfold texts in E2. cbn in E2. subst s2.
    inversion S as [|? ? ? ? ? ? r ? b2 st2 ? T L Br S2]; subst. rewrite ?count_nl_app. unfold tline. cbn [fst].
    destruct L as (_ & _ & A3). rewrite A3; [assert (Q : count_nl [c_nl] = 1%Z) by reflexivity; change (count_nl ["010"%char]) with (count_nl [c_nl]); rewrite ?Q; lia| |discriminate|discriminate].
    intros [d [P _]]. apply opener_head in P as (c & r0 & E & X). injection E as <- <-. destruct X as [X|[X|X]]; discriminate X. }
  set (d := count_nl A) in *.
  destruct (tpieces_prev (m - 1) (- 1) u us gb gsb Bu ltac:(lia) ltac:(lia) PB) as [-> PB'].
  apply (tpieces_down d) in PB'. cbn [map] in PB'.
  pose proof (tpieces_app _ _ _ _ PA (map (down_tok d) (u :: us)) (map (map (down_tok d)) gsb)) as PAB. rewrite La, Lt in PAB.
  specialize (PAB ltac:(replace (d - 1)%Z with (-1 + d)%Z by lia; exact PB')).
  destruct (tpieces_unique _ _ _ _ PC _ _ PAB) as [_ ->].
  assert (F : Forall2 tview (gsa ++ map (map (down_tok d)) gsb) (va ++ map (down d) vb)).
  { apply Forall2_app; [done|]. apply Forall2_fmap. eapply Forall2_impl; [exact FB|]. intros p v. apply tview_down. }
  clear -FC F. revert vc FC. induction F as [|p v gs vs V F IH]; intros vc F'; inversion F' as [|? v' ? vs2 V' F2]; subst; [done|].
  f_equal; [by eapply tview_unique|by apply IH].
Qed.
