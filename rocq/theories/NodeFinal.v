(** Final lemmas for the Node properties. *)
From Verif Require Export NodeHist.

(** ** Acyclic histories *)
Definition no_replace (o : op) : Prop :=
  match o with OReplaceNext _ _ | OReplacePrev _ _ => False | _ => True end.
Lemma hist_acyclic h ops h' : wf h -> acyclic h -> Forall no_replace ops -> hist h ops h' -> acyclic h'.
Proof.
  intros W A F H. revert F W A. induction H as [h|h o h1 rs ops h2 L E H IH]; intros F W A; [done|].
  apply Forall_cons in F as [F1 F2]. destruct (exec_wf h o h1 rs W L E) as [W1 L1].
  apply IH; [done|done|]. eapply exec_acyclic; [exact W|exact A|exact L| |exact E]. by destruct o.
Qed.

(** ** Independence *)
Lemma play_conf D h K h' K' : closed D h -> above D (length h) -> Forall (pin D) K -> play h K h' K' -> conf D h h' /\ Forall (pin D) K'.
Proof.
  intros C A F H. revert C A F. induction H as [h K|h K p h' K' Hp H IH|h K p h' K' Hp H IH|h K o h1 rs h' K' Ha E H IH]; intros C A F.
  - split; [by apply conf_refl|done].
  - rewrite Forall_forall in F. apply IH; [done|done|]. constructor; [|by apply Forall_forall].
    apply closed_pin_next; auto.
  - rewrite Forall_forall in F. apply IH; [done|done|]. constructor; [|by apply Forall_forall].
    apply closed_pin_prev; auto.
  - assert (Fa : Forall (pin D) (args o)).
    { apply Forall_forall. intros p Hp. rewrite Forall_forall in Ha, F. destruct (Ha p Hp) as [->|]; [done|auto]. }
    destruct (exec_conf D h o h1 rs C A Fa E) as [C1 F1].
    destruct IH as [C2 F2]; [apply C1| |by apply Forall_app|].
    + eapply above_mono; [|exact A]. apply C1.
    + split; [by eapply conf_trans|done].
Qed.

Lemma copy_ends h l h1 r : wf h -> valid h l -> copy h (Some l) true = Ok (h1, r) ->
  r = Some (length h) /\ h `prefix_of` h1 /\ wf h1 /\
  exists ms, chain h1 ms /\ forall x, length h <= x < length h1 <-> x ∈ ms.
Proof.
  intros W V E. destruct (copy_inv h l h1 r W V E) as (xs & ys & C).
  destruct (copy_spec h l xs ys C) as (h2 & c & xs' & ys' & E1 & Pre & _ & C1 & M & _ & _ & _ & Ec).
  rewrite E in E1. injection E1 as -> ->. subst c.
  destruct Pre as [k ->].
  split_and!; [done|by eexists|by eapply wf_extend|by eexists].
Qed.

Lemma closed_new (h h1 : heap) ms : chain h1 ms -> (forall x, length h <= x < length h1 <-> x ∈ ms) ->
  closed (fun x => length h <= x) h1.
Proof.
  intros C M x Dx. destruct (decide (x < length h1)) as [L|L].
  - assert (Hx : x ∈ ms) by (apply M; lia). split.
    + destruct (next_of h1 (Some x)) as [y|] eqn:E; [|done]. simpl. eapply M. by eapply chain_next_in.
    + destruct (prev_of h1 (Some x)) as [y|] eqn:E; [|done]. simpl. eapply M. by eapply chain_prev_in.
  - unfold next_of, prev_of. by rewrite !field_out.
Qed.
Lemma closed_old h h1 : wf h -> h `prefix_of` h1 -> closed (fun x => x < length h \/ length h1 <= x) h1.
Proof.
  intros W [k ->] x [Dx|Dx].
  - unfold next_of, prev_of. rewrite !field_app by done. split.
    + destruct (field None n_next h (Some x)) as [y|] eqn:E; [|done]. left. by eapply wf_next_valid.
    + destruct (field None n_prev h (Some x)) as [y|] eqn:E; [|done]. left. by eapply wf_prev_valid.
  - unfold next_of, prev_of. rewrite !field_out; [done|unfold valid; lia..].
Qed.

Lemma copy_independent h l h1 c : wf h -> valid h l -> copy h (Some l) true = Ok (h1, c) ->
  (forall h2 K, play h1 [c] h2 K -> forall x, valid h x -> h2 !! x = h !! x) /\
  (forall K0 h2 K, Forall (live h) K0 -> play h1 K0 h2 K -> forall x, length h <= x < length h1 -> h2 !! x = h1 !! x).
Proof.
  intros W V E. destruct (copy_ends h l h1 c W V E) as (-> & Pre & W1 & ms & C & M). split.
  - intros h2 K P x Vx. apply (play_conf (fun x => length h <= x)) in P as [[_ [_ P]] _].
    + rewrite P by (unfold valid in Vx; lia). destruct Pre as [k ->]. by rewrite lookup_app_l.
    + by eapply closed_new.
    + intros y Hy. apply prefix_length in Pre. lia.
    + by repeat constructor.
  - intros K0 h2 K F P x Vx. apply (play_conf (fun x => x < length h \/ length h1 <= x)) in P as [[_ [_ P]] _].
    + apply P. lia.
    + by apply closed_old.
    + intros y Hy. by right.
    + eapply Forall_impl; [exact F|]. intros [y|]; [|done]. simpl. by left.
Qed.

(** ** Divergence *)
Lemma nxt_det h a b c : nxt h a b -> nxt h a c -> b = c.
Proof. unfold nxt. congruence. Qed.
Lemma cycle_forward h a b : tc (nxt h) a a -> rtc (nxt h) a b -> tc (nxt h) b b.
Proof.
  intros T R. revert T. induction R as [a|a x b N R IH]; intros T; [done|].
  apply IH. inversion T as [? ? N'|? y ? N' T']; subst.
  - pose proof (nxt_det _ _ _ _ N N'). subst. done.
  - pose proof (nxt_det _ _ _ _ N N'). subst y. by eapply tc_r.
Qed.
Lemma loop_diverges {S} (hp : S -> heap) h fn l (s : S) fuel : tc (nxt h) l l ->
  hp s = h -> (forall x s, hp s = h -> exists s', fn x s = Ok (s', true) /\ hp s' = h) ->
  iter_next hp fuel (Some l) fn s = OutOfFuel.
Proof.
  unfold iter_next. revert l s. induction fuel as [|f IH]; intros l s T Hs Hf; [done|].
  simpl. destruct (Hf l s Hs) as (s' & -> & Hs'). rewrite Hs'.
  assert (exists b, nxt h l b) as [b Nb] by (inversion T; subst; eauto).
  unfold nxt in Nb. rewrite Nb. apply IH; [|done|done].
  eapply cycle_forward; [exact T|]. by apply rtc_once.
Qed.

(** ** Combine *)
Lemma isolate_keeps_detached h p x : wf h -> live h p -> next_of h (Some x) = None /\ prev_of h (Some x) = None ->
  next_of (isolate h p) (Some x) = None /\ prev_of (isolate h p) (Some x) = None.
Proof.
  intros W L [N P]. destruct p as [n|]; [|done]. destruct (isolate_links h n W L) as [N' P'].
  rewrite N', P'. split; repeat case_decide; auto.
Qed.
Lemma isolate_detaches h n : wf h -> valid h n ->
  next_of (isolate h (Some n)) (Some n) = None /\ prev_of (isolate h (Some n)) (Some n) = None.
Proof. intros W L. destruct (isolate_links h n W L) as [N' P']. rewrite N', P'. by rewrite !decide_True. Qed.
Lemma isolate_all_keeps h ps x : wf h -> Forall (live h) ps -> next_of h (Some x) = None /\ prev_of h (Some x) = None ->
  next_of (isolate_all h ps) (Some x) = None /\ prev_of (isolate_all h ps) (Some x) = None.
Proof.
  revert h. induction ps as [|p ps IH]; intros h W F D; [done|]. apply Forall_cons in F as [F1 F2].
  apply IH; [by apply wf_isolate| |by apply isolate_keeps_detached].
  eapply Forall_impl; [exact F2|]. intros q Hq. eapply live_mono; [|exact Hq]. by rewrite (proj1 (same_payload_isolate h p)).
Qed.
Lemma isolate_all_detaches h ps x : wf h -> Forall (live h) ps -> Some x ∈ ps ->
  next_of (isolate_all h ps) (Some x) = None /\ prev_of (isolate_all h ps) (Some x) = None.
Proof.
  revert h. induction ps as [|p ps IH]; intros h W F D; [by apply elem_of_nil in D|]. apply Forall_cons in F as [F1 F2].
  assert (F2' : Forall (live (isolate h p)) ps).
  { eapply Forall_impl; [exact F2|]. intros q Hq. eapply live_mono; [|exact Hq]. by rewrite (proj1 (same_payload_isolate h p)). }
  apply elem_of_cons in D as [<-|D].
  - apply (isolate_all_keeps (isolate h (Some x)) ps x); [by apply wf_isolate|done|by apply isolate_detaches].
  - apply (IH (isolate h p)); [by apply wf_isolate|done|done].
Qed.
(** Links away from the absorbed nodes stay. *)
Lemma isolate_all_next h ps x : wf h -> Forall (live h) ps ->
  next_of (isolate_all h ps) (Some x) = (if decide (Some x ∈ ps \/ (next_of h (Some x) ∈ ps)) then None else next_of h (Some x)).
Proof.
  revert h. induction ps as [|p ps IH]; intros h W F.
  { unfold isolate_all; cbn [fold_left]. case_decide as HH; [|done]. exfalso. revert HH. intros [H|H]; by apply elem_of_nil in H. }
  apply Forall_cons in F as [F1 F2].
  assert (F2' : Forall (live (isolate h p)) ps).
  { eapply Forall_impl; [exact F2|]. intros q Hq. eapply live_mono; [|exact Hq]. by rewrite (proj1 (same_payload_isolate h p)). }
  change (isolate_all h (p :: ps)) with (isolate_all (isolate h p) ps).
  rewrite IH; [|by apply wf_isolate|done].
  destruct p as [n|].
  - destruct (isolate_links h n W F1) as [N' _]. rewrite N'.
    repeat case_decide; subst; try done; exfalso; repeat match goal with H : context [_ ∈ _ :: _] |- _ => rewrite !elem_of_cons in H end;
      intuition congruence.
  - change (isolate h None) with h. repeat case_decide; try done;
      rewrite !elem_of_cons in *; destruct (next_of h (Some x)); intuition congruence.
Qed.

Lemma payload_combine_frame h k l ps t x : valid h l -> x <> l ->
  let h' := set_text (isolate_all (set_kind h (Some l) k) ps) (Some l) t in
  line_of h' (Some x) = line_of h (Some x) /\ kind_of h' (Some x) = kind_of h (Some x) /\ text_of h' (Some x) = text_of h (Some x).
Proof.
  intros V Hx h'. pose proof (same_payload_isolate_all (set_kind h (Some l) k) ps) as [SL SP].
  destruct (SP (Some x)) as (S1 & S2 & S3).
  assert (V' : valid (isolate_all (set_kind h (Some l) k) ps) l) by (unfold valid; rewrite SL, length_set_kind; done).
  unfold h'. rewrite line_set_text, kind_set_text, text_set_text by done. rewrite decide_False by done.
  rewrite S1, S2, S3, line_set_kind, text_set_kind, kind_set_kind by done. by rewrite decide_False.
Qed.

(** ** Nil *)
Lemma deep_copy_no_panic f : forall h n p q, deep_copy f h n p q <> Panic.
Proof.
  induction f as [|f IH]; intros h n p q; destruct n as [l|]; try done.
  cbn [deep_copy]. unfold alloc. set (nd := mkNode _ _ _ _ _).
  assert (G1 : (match p with Some _ => Ok (h ++ [nd], p) | None => deep_copy f (h ++ [nd]) (prev_of (h ++ [nd]) (Some l)) None (Some (length h)) end) <> Panic)
    by (destruct p; [done|apply IH]).
  destruct (match p with Some _ => _ | None => _ end) as [[h1 p1]| |]; [|done|done]. cbn [res_bind].
  assert (G2 : (match q with Some _ => Ok (h1, q) | None => deep_copy f h1 (next_of h1 (Some l)) (Some (length h)) None end) <> Panic)
    by (destruct q; [done|apply IH]).
  destruct (match q with Some _ => _ | None => _ end) as [[h2 q1]| |]; done.
Qed.
Lemma combine_panic rev_ h n k nns : combine rev_ h n k nns = Panic <-> n = None /\ head nns = Some None.
Proof.
  destruct n as [l|]; [rewrite combine_spec; split; [done|intros [? _]; done]|].
  destruct nns as [|a rest]; [split; [done|intros [_ ?]; done]|]. unfold combine. rewrite combine_loop_spec.
  destruct a; simpl; split; try done; intros [_ ?]; done.
Qed.
Lemma exec_panic h o : exec h o = Panic <->
  exists k rest, o = OCombinePrev None k (None :: rest) \/ o = OCombineNext None k (None :: rest).
Proof.
  split.
  - destruct o; cbn [exec]; try discriminate.
    + destruct (new_node h line text kinds); discriminate.
    + unfold copy. destruct n; [|discriminate]. destruct rel; [|discriminate].
      pose proof (deep_copy_no_panic (S (length h)) h (Some n) None None).
      destruct (deep_copy _ _ _ _ _); try discriminate. done.
    + unfold combine_prev. pose proof (proj1 (combine_panic true h n k nns)) as G. destruct (combine true h n k nns); try discriminate.
      intros _. destruct (G eq_refl) as [-> G2]. destruct nns as [|a rest]; [discriminate|]. injection G2 as ->. eauto.
    + unfold combine_next. pose proof (proj1 (combine_panic false h n k nns)) as G. destruct (combine false h n k nns); try discriminate.
      intros _. destruct (G eq_refl) as [-> G2]. destruct nns as [|a rest]; [discriminate|]. injection G2 as ->. eauto.
  - intros (k & rest & [-> | ->]); cbn [exec]; unfold combine_prev, combine_next;
      rewrite (proj2 (combine_panic _ h None k (None :: rest))); done.
Qed.
Lemma exec_all_nil h o h' rs : args o <> [] -> Forall (fun p => p = None) (args o) -> exec h o = Ok (h', rs) ->
  h' = h /\ Forall (fun p => p = None) rs.
Proof.
  intros NE F E.
  destruct o; cbn [exec args] in *; rewrite ?Forall_cons in F; try done;
  try (destruct F as [-> F2]); try (destruct F2 as [-> _]); try (injection E as <- <-; split; [done|by repeat constructor]).
  - unfold combine_prev, combine in E. destruct nns as [|a rest]; [injection E as <- <-; split; [done|by repeat constructor]|].
    apply Forall_cons in F2 as [-> F2]. rewrite combine_loop_spec in E. discriminate.
  - unfold combine_next, combine in E. destruct nns as [|a rest]; [injection E as <- <-; split; [done|by repeat constructor]|].
    apply Forall_cons in F2 as [-> F2]. rewrite combine_loop_spec in E. discriminate.
Qed.

(** Absorbing a run of consecutive nodes. *)
Lemma isolate_all_chain ms : forall h ys, wf h -> chain h (ms ++ ys) ->
  let h' := isolate_all h (map Some ms) in
  chain h' ys /\ (forall m, m ∈ ms -> chain h' [m]) /\
  (forall zs, chain h zs -> (forall m, m ∈ ms -> m ∉ zs) -> chain h' zs).
Proof.
  induction ms as [|m ms IH]; intros h ys W C h'.
  { split_and!; [done|by intros m H%elem_of_nil|]. intros zs Cz _. exact Cz. }
  pose proof (chain_NoDup _ _ C) as ND. simpl in ND. apply NoDup_cons in ND as [ND1 ND2].
  destruct (isolate_chain h W m [] (ms ++ ys) C) as (_ & C1 & C2 & F).
  assert (V : valid h m) by (eapply seg_valid; [exact C|by left]).
  assert (W1 : wf (isolate h (Some m))) by (by apply wf_isolate).
  destruct (IH (isolate h (Some m)) ys W1 C2) as (G1 & G2 & G3).
  split_and!; [exact G1| |].
  - intros x [->|Hx]%elem_of_cons; [|by apply G2]. apply G3; [exact C1|].
    intros y Hy ->%elem_of_list_singleton. apply ND1, elem_of_app. by left.
  - intros zs Cz Hz. apply G3; [|intros y Hy; apply Hz; by right]. apply F; [exact Cz|]. apply Hz. by left.
Qed.

Lemma combine_run rev_ h k xs n ms ys : wf h -> ms <> [] -> chain h (xs ++ n :: ms ++ ys) ->
  exists h', combine rev_ h (Some n) k (map Some ms) = Ok (h', Some n) /\
    chain h' (xs ++ [n]) /\ (forall m, m ∈ ms -> chain h' [m]) /\ chain h' ys /\
    (forall zs, chain h zs -> n ∉ zs -> (forall m, m ∈ ms -> m ∉ zs) -> chain h' zs) /\
    text_of h' (Some n) = combined rev_ (text_of h (Some n)) (map (fun m => text_of h (Some m)) ms).
Proof.
  intros W NE C. rewrite combine_spec.
  pose proof (chain_NoDup _ _ C) as ND. apply NoDup_app in ND as (ND1 & ND2 & ND3). apply NoDup_cons in ND3 as [ND3 ND4].
  assert (A : absorbed (Some n) (map Some ms) = map Some ms).
  { unfold absorbed. clear -ND3. induction ms as [|m ms IH]; [done|]. simpl. rewrite filter_cons_True.
    - f_equal. apply IH. intros H. apply ND3. simpl. by right.
    - split; [done|]. intros [= ->]. apply ND3. by left. }
  rewrite A. destruct ms as [|m ms]; [done|]. cbn [map]. eexists. split; [done|].
  set (h1 := set_kind h (Some n) k).
  assert (W1 : wf h1) by (by apply wf_set_kind).
  assert (CK : forall zs, chain h zs -> chain h1 zs).
  { intros zs. apply seg_same_links; [apply length_set_kind|intros; apply links_set_kind]. }
  assert (CT : forall H t zs, chain H zs -> chain (set_text H (Some n) t) zs).
  { intros H t zs. apply seg_same_links; [apply length_set_text|intros; apply links_set_text]. }
  assert (V : valid h n) by (eapply seg_valid; [exact C|apply elem_of_app; right; by left]).
  assert (C0 : chain h1 ((xs ++ [n]) ++ m :: ms ++ ys)) by (apply CK; rewrite <- app_assoc; exact C).
  destruct (isolate_chain h1 W1 m (xs ++ [n]) (ms ++ ys) C0) as (D1 & D2 & D3 & DF).
  assert (Vm : valid h1 m) by (eapply seg_valid; [exact C0|apply elem_of_app; right; by left]).
  assert (W2 : wf (isolate h1 (Some m))) by (by apply wf_isolate).
  destruct (isolate_all_chain ms _ ys W2 D3) as (G1 & G2 & G3).
  simpl in ND4. apply NoDup_cons in ND4 as [ND4 ND5].
  split_and!.
  - apply CT, G3; [exact D1|]. intros y Hy Hin. apply elem_of_app in Hin as [Hin|Hin%elem_of_list_singleton].
    + apply (ND2 y Hin). right. simpl. right. apply elem_of_app. by left.
    + subst y. apply ND3. simpl. right. apply elem_of_app. by left.
  - intros x [->|Hx]%elem_of_cons; apply CT; [|by apply G2]. apply G3; [exact D2|].
    intros y Hy ->%elem_of_list_singleton. apply ND4, elem_of_app. by left.
  - apply CT, G1.
  - intros zs Cz Hn Hm. apply CT, G3; [|intros; apply Hm; by right]. apply DF; [by apply CK|]. apply Hm. by left.
  - rewrite text_set_text.
    + rewrite decide_True by done. f_equal. f_equal. by rewrite <- map_map with (f := Some) (g := text_of h).
    + unfold valid. rewrite (proj1 (same_payload_isolate_all _ _)). unfold h1. by rewrite length_set_kind.
Qed.

Lemma combine_full rev_ h l k nns : wf h -> valid h l -> Forall (live h) nns ->
  exists h', combine rev_ h (Some l) k nns = Ok (h', Some l) /\ wf h' /\ length h' = length h /\
    text_of h' (Some l) = combined rev_ (text_of h (Some l)) (map (text_of h) (absorbed (Some l) nns)) /\
    kind_of h' (Some l) = k /\ line_of h' (Some l) = line_of h (Some l) /\
    (forall x, Some x ∈ absorbed (Some l) nns -> next_of h' (Some x) = None /\ prev_of h' (Some x) = None) /\
    (forall x, x <> l -> same_node h x h' x) /\
    (forall x, next_of h' (Some x) = if decide (Some x ∈ absorbed (Some l) nns \/ next_of h (Some x) ∈ absorbed (Some l) nns)
                                     then None else next_of h (Some x)).
Proof.
  intros W V F. rewrite combine_spec.
  assert (G : combine rev_ h (Some l) k nns = combine rev_ h (Some l) k nns) by done.
  rewrite combine_spec in G at 1. symmetry in G. apply wf_combine in G as (W' & L' & _); [|done|done|done].
  destruct nns as [|a rest].
  { eexists. split; [done|]. split_and!; [done|done|..].
    - rewrite text_set_kind. unfold absorbed. simpl. unfold combined. destruct rev_; simpl; by rewrite ?app_nil_r.
    - rewrite kind_set_kind by done. by rewrite decide_True.
    - apply line_set_kind.
    - by intros x H%elem_of_nil.
    - intros x Hx. unfold same_node. rewrite line_set_kind, text_set_kind, kind_set_kind by done. by rewrite decide_False.
    - intros x. rewrite (proj1 (links_set_kind h (Some l) k x)). case_decide as D; [|done].
      destruct D as [D|D]; by apply elem_of_nil in D. }
  set (ps := absorbed _ _) in *. eexists. split; [done|].
  assert (FP : Forall (live (set_kind h (Some l) k)) ps).
  { apply Forall_forall. intros p Hp. apply (live_mono h); [by rewrite length_set_kind|].
    apply elem_of_list_filter in Hp as [_ Hp]. rewrite Forall_forall in F. by apply F. }
  pose proof (same_payload_isolate_all (set_kind h (Some l) k) ps) as [SL SP].
  assert (V' : valid (isolate_all (set_kind h (Some l) k) ps) l) by (unfold valid; rewrite SL, length_set_kind; done).
  destruct (SP (Some l)) as (S1 & S2 & S3).
  split_and!; [done|done|..].
  - rewrite text_set_text by done. by rewrite decide_True.
  - rewrite kind_set_text, S2, kind_set_kind by done. by rewrite decide_True.
  - by rewrite line_set_text, S1, line_set_kind.
  - intros x Hx. rewrite !(proj1 (links_set_text _ _ _ x)), !(proj2 (links_set_text _ _ _ x)).
    apply isolate_all_detaches; [by apply wf_set_kind|done|done].
  - intros x Hx. by apply payload_combine_frame.
  - intros x. rewrite (proj1 (links_set_text _ _ _ x)), isolate_all_next; [|by apply wf_set_kind|done].
    by rewrite (proj1 (links_set_kind h (Some l) k x)).
Qed.
