(** ParseScope: splitting the chain of tokens. *)
From Verif Require Export SpecScope Scope LexRun.

Lemma find_kind_in s ks : find_scope_kind s ks = SUnknown \/ find_scope_kind s ks ∈ ks.
Proof.
  induction ks as [|k ks IH]; [by left|]. cbn [find_scope_kind]. destruct (is_scope_kind s k); [right; by left|].
  destruct IH as [->|IH]; [by left|right; by right].
Qed.
Lemma new_scope_kind_begins t : (new_scope_kind t = SUnknown /\ forall k, ~ begins k t) \/
  (new_scope_kind t <> SUnknown /\ begins (new_scope_kind t) t).
Proof.
  assert (E : forall k, k ∈ scope_kinds <-> k ∈ scope_keywords) by (intros k; unfold scope_kinds, scope_keywords; rewrite !elem_of_cons; done).
  unfold new_scope_kind. destruct (find_kind_in t scope_kinds) as [U|I].
  - left. split; [done|]. intros k [K P]. apply E in K. pose proof (proj1 (find_scope_kind_unknown t scope_kinds (fun _ => conj (fun x => x) (fun x => x))) U) as U'. by apply (U' k).
  - right. split.
    + intros U. rewrite U in I. unfold scope_kinds in I. apply (bool_decide_eq_true (SUnknown ∈ _)) in I. vm_compute in I. discriminate I.
    + split; [by apply E|]. apply (find_scope_kind_spec t scope_kinds _ (fun _ => conj (fun x => x) (fun x => x)) I). done.
Qed.

Definition scope_of (h : heap) (g : list loc) : scope :=
  match g with
  | [] => mkScope 0 SUnknown None
  | l :: _ => mkScope (line_of h (Some l)) (new_scope_kind (text_of h (Some l))) (Some l)
  end.

(** What tryAppendScope does to the heap. *)
Lemma cut_before h xs c ys : SpecNode.wf h -> chain h (xs ++ c :: ys) ->
  let h' := if negb (ptr_eqb (prev_of h (Some c)) None) then fst (remove_prev h (Some c)) else h in
  SpecNode.wf h' /\ same_payload h h' /\ chain h' xs /\ chain h' (c :: ys) /\
  (forall zs, chain h zs -> c ∉ zs -> chain h' zs) /\
  (forall l, l ∉ xs ++ c :: ys -> same_links h h' l).
Proof.
  intros W C. pose proof (chain_prev h xs c ys C) as P. cbv zeta.
  destruct (ptr_eqb (prev_of h (Some c)) None) eqn:E; cbn [negb].
  - apply ptr_eqb_true in E. rewrite E in P. symmetry in P. apply last_None in P as ->.
    split_and!; try done.
  - pose proof (remove_prev_chain h W c xs ys C) as R. 
    assert (V : valid h c) by (eapply valid_chain; [exact C|apply elem_of_app; right; by left]).
    assert (W' : SpecNode.wf (fst (remove_prev h (Some c)))) by (apply wf_remove_prev; done).
    pose proof (same_payload_remove_prev h (Some c)) as SP.
    assert (F : forall l, l ∉ xs ++ c :: ys -> same_links h (fst (remove_prev h (Some c))) l).
    { intros l Hl. apply near_remove_prev; [done..|]. intros [[= ->]|[N|N]]; apply Hl.
      - apply elem_of_app; right; by left.
      - eapply chain_next_in; [exact C|apply elem_of_app; right; by left|exact N].
      - eapply chain_prev_in; [exact C|apply elem_of_app; right; by left|exact N]. }
    destruct (remove_prev h (Some c)) as [h' r]. cbn [fst] in *. destruct R as (R1 & R2 & _ & R4). split_and!; done.
Qed.

Definition finish (r : res (pst * ptr)) : res (heap * list scope * list ptr) :=
  res_bind r (fun '(s, _) => let s := try_append s in Ok (p_heap s, p_scs s, p_reset s)).
Definition split_iter (fuel : nat) (p : ptr) (s : pst) : res (pst * ptr) :=
  iter_next p_heap fuel p (fun l s => Ok (split_step l s)) s.
Lemma split_iter_cons f l s : split_iter (S f) (Some l) s =
  split_iter f (next_of (p_heap (fst (split_step l s))) (Some l)) (fst (split_step l s)).
Proof.
  unfold split_iter, iter_next. cbn [loop]. unfold split_step.
  destruct (_ =? _)%Z; [done|]. destruct (str_eqb _ _); done.
Qed.
Lemma str_eqb_true s t : str_eqb s t = true <-> s = t.
Proof. unfold str_eqb. apply bool_decide_eq_true. Qed.
Lemma str_eqb_false s t : str_eqb s t = false <-> s <> t.
Proof. unfold str_eqb. apply bool_decide_eq_false. Qed.

Lemma starts_payload h h' prev l : same_payload h h' -> starts h' prev l <-> starts h prev l.
Proof. intros [_ P]. destruct (P (Some l)) as (E1 & _ & E3). unfold starts. by rewrite E1, E3. Qed.
Lemma pieces_payload h h' prev ls g gs : same_payload h h' -> pieces h prev ls g gs -> pieces h' prev ls g gs.
Proof.
  intros SP. induction 1 as [prev|prev l ls g gs N P IH|prev l ls g gs N P IH]; [constructor|..].
  - apply pc_inside; [by rewrite (starts_payload h h')|]. destruct SP as [_ SP]. by destruct (SP (Some l)) as (-> & _).
  - apply pc_start; [by rewrite (starts_payload h h')|]. destruct SP as [_ SP]. by destruct (SP (Some l)) as (-> & _).
Qed.
Lemma scope_of_payload h h' g : same_payload h h' -> scope_of h' g = scope_of h g.
Proof. intros [_ P]. destruct g as [|l g]; [done|]. cbn. destruct (P (Some l)) as (-> & _ & ->). done. Qed.
Lemma scopes_of_payload h h' gs : same_payload h h' -> map (scope_of h') gs = map (scope_of h) gs.
Proof. intros P. apply map_ext. intros g. by apply scope_of_payload. Qed.
Lemma pieces_total h ls : forall prev, exists g gs, pieces h prev ls g gs.
Proof.
  induction ls as [|l ls IH]; intros prev; [do 2 eexists; constructor|].
  destruct (IH (line_of h (Some l))) as (g & gs & P).
  destruct (decide (line_of h (Some l) = prev)) as [E|E].
  { exists (l :: g), gs. apply pc_inside; [|done]. intros [N _]. done. }
  destruct (new_scope_kind_begins (text_of h (Some l))) as [[_ N]|[_ B]].
  - exists (l :: g), gs. apply pc_inside; [|done]. intros [_ [k K]]. by apply (N k).
  - exists [], ((l :: g) :: gs). apply pc_start; [|done]. split; [done|by eexists].
Qed.
Lemma pieces_concat h prev ls g gs : pieces h prev ls g gs -> ls = g ++ concat gs.
Proof. induction 1 as [|? ? ? ? ? _ _ ->|? ? ? ? ? _ _ ->]; done. Qed.

(** One step of the walk. *)
Lemma split_step_inside l s : ~ starts (p_heap s) (p_line s) l ->
  split_step l s = (mkP (p_heap s) (p_scs s) (p_reset s) (p_head s) (p_k s) (line_of (p_heap s) (Some l)), true).
Proof.
  intros N. unfold split_step. destruct (Z.eqb_spec (line_of (p_heap s) (Some l)) (p_line s)) as [E|E].
  - rewrite E. by destruct s.
  - destruct (new_scope_kind_begins (text_of (p_heap s) (Some l))) as [[E' _]|[_ B]].
    + by rewrite (proj2 (str_eqb_true _ _) E').
    + destruct N. split; [done|by eexists].
Qed.
Lemma split_step_start l s : starts (p_heap s) (p_line s) l ->
  split_step l s =
    (let s' := try_append s in mkP (p_heap s') (p_scs s') (p_reset s') (Some l) (new_scope_kind (text_of (p_heap s) (Some l))) (line_of (p_heap s) (Some l)), true) /\
  new_scope_kind (text_of (p_heap s) (Some l)) <> SUnknown.
Proof.
  intros [E [k B]]. unfold split_step. destruct (Z.eqb_spec (line_of (p_heap s) (Some l)) (p_line s)) as [|_]; [done|].
  destruct (new_scope_kind_begins (text_of (p_heap s) (Some l))) as [[_ N]|[N _]]; [by destruct (N k)|].
  rewrite (proj2 (str_eqb_false _ _) N). split; [|done]. unfold try_append. cbn [p_heap p_scs p_reset p_head p_k p_line].
  destruct (negb (str_eqb (p_k s) SUnknown)); done.
Qed.

(** Inside a scope that starts at [c]. *)
Lemma split_inside rest : forall f s pg c cs g gs, SpecNode.wf (p_heap s) ->
  chain (p_heap s) (pg ++ (c :: cs) ++ rest) -> p_head s = Some c -> p_k s = new_scope_kind (text_of (p_heap s) (Some c)) ->
  p_k s <> SUnknown -> pieces (p_heap s) (p_line s) rest g gs -> length rest < f ->
  exists h', finish (split_iter f (head rest) s) =
      Ok (h', p_scs s ++ scope_of h' (c :: cs ++ g) :: map (scope_of h') gs, p_reset s ++ Some c :: map head gs) /\
    SpecNode.wf h' /\ same_payload (p_heap s) h' /\ chain h' pg /\ chain h' (c :: cs ++ g) /\ Forall (chain h') gs /\
    (forall zs, chain (p_heap s) zs -> (forall l, l ∈ zs -> l ∉ pg ++ (c :: cs) ++ rest) -> chain h' zs) /\
    (forall l, l ∉ pg ++ (c :: cs) ++ rest -> same_links (p_heap s) h' l).
Proof.
  induction rest as [|l rest IH]; intros f s pg c cs g gs W C Hh Hk NU P F.
  - inversion P; subst. cbn [head hd_error]. rewrite app_nil_r in *.
    destruct (cut_before (p_heap s) pg c cs W C) as (W' & SP & C1 & C2 & Z & L).
    destruct f as [|f]; [lia|]. unfold split_iter, iter_next. cbn [loop finish res_bind]. unfold try_append. rewrite Hh.
    rewrite (proj2 (str_eqb_false _ _) NU). cbn [negb].
    set (h' := if negb _ then _ else _) in *.
    exists h'. cbn [p_heap p_scs p_reset]. split.
    2:{ split; [done|]. split; [done|]. split; [done|]. split; [done|]. split; [constructor|]. split; [|intros l Hl; apply L; by rewrite app_nil_r in Hl].
        intros zs H1 H2. apply Z; [done|]. intros Hc. apply (H2 c Hc), elem_of_app. right. by left. }
    rewrite (scope_of_payload _ _ (c :: cs) SP). cbn [map scope_of]. unfold new_scope. by rewrite Hk.
  - destruct f as [|f]; [simpl in F; lia|]. cbn [head hd_error]. rewrite split_iter_cons.
    assert (Nx : next_of (p_heap s) (Some l) = head rest).
    { apply (chain_next (p_heap s) (pg ++ c :: cs) l rest). by rewrite <- app_assoc. }
    inversion P as [|? ? ? g' ? N P'|? ? ? g' gs' N P']; subst.
    + rewrite (split_step_inside l s N). cbn [fst p_heap]. rewrite Nx.
      destruct (IH f (mkP (p_heap s) (p_scs s) (p_reset s) (p_head s) (p_k s) (line_of (p_heap s) (Some l))) pg c (cs ++ [l]) g' gs) as
        (h' & E & W' & SP & C1 & C2 & C3 & Z & L); cbn [p_heap p_line p_k p_head]; try done.
      { cbn [app] in *. by rewrite <- app_assoc. } { simpl in F. lia. }
      cbn [p_heap p_scs p_reset app] in *. rewrite <- !app_assoc in *. cbn [app] in *.
      exists h'. split_and!; done.
    + destruct (split_step_start l s N) as [-> NU']. cbn [fst p_heap].
      cbn [app] in C. destruct (cut_before (p_heap s) pg c (cs ++ l :: rest) W C) as (W' & SP & C1 & C2 & Z & L).
      set (s1 := mkP _ _ _ _ _ _).
      assert (E1 : p_heap (try_append s) = (if negb (ptr_eqb (prev_of (p_heap s) (Some c)) None) then fst (remove_prev (p_heap s) (Some c)) else p_heap s)).
      { unfold try_append. rewrite Hh. by destruct (negb (str_eqb _ _)). }
      assert (E2 : p_scs (try_append s) = p_scs s ++ [mkScope (line_of (p_heap s) (Some c)) (p_k s) (Some c)] /\ p_reset (try_append s) = p_reset s ++ [Some c]).
      { unfold try_append. rewrite Hh. by rewrite (proj2 (str_eqb_false _ _) NU). }
      assert (Hs1 : p_heap s1 = (if negb (ptr_eqb (prev_of (p_heap s) (Some c)) None) then fst (remove_prev (p_heap s) (Some c)) else p_heap s)) by exact E1.
      rewrite E1. set (h1 := if negb _ then _ else _) in *.
      assert (Nx1 : next_of h1 (Some l) = head rest) by (apply (chain_next h1 (c :: cs) l rest); done).
      rewrite Nx1. destruct SP as [SL SP].
      assert (D : NoDup (pg ++ c :: cs ++ l :: rest)) by (by eapply chain_NoDup).
      destruct (IH f s1 (c :: cs) l [] g' gs') as (h' & E & W2 & SP2 & D1 & D2 & D3 & Z2 & L2).
      { by rewrite Hs1. } { rewrite Hs1. exact C2. } { done. }
      { rewrite Hs1. unfold s1. cbn [p_k]. by destruct (SP (Some l)) as (_ & _ & ->). } { done. }
      { rewrite Hs1. unfold s1. cbn [p_line]. eapply pieces_payload; [|exact P']. done. } { simpl in F. lia. }
      rewrite Hs1 in *. destruct E2 as [E2 E3]. exists h'.
      assert (SPf : same_payload (p_heap s) h') by (eapply same_payload_trans; [|exact SP2]; done).
      split_and!; try done.
      * fold h1 in E. rewrite E. unfold s1. cbn [p_scs p_reset]. rewrite E2, E3, <- !app_assoc. cbn [app map].
        rewrite app_nil_r, (scope_of_payload _ _ (c :: cs) SPf). cbn [scope_of]. by rewrite Hk.
      * apply Z2; [done|]. intros x Hx Hx'. apply NoDup_app in D as (_ & D & _). apply (D x Hx). exact Hx'.
      * rewrite app_nil_r. done.
      * by constructor.
      * intros zs H1 H2. apply Z2.
        -- apply Z; [done|]. intros Hc. apply (H2 c Hc). apply elem_of_app. right. by left.
        -- intros x Hx Hx'. apply (H2 x Hx). apply elem_of_app. right. exact Hx'.
      * intros x Hx. cbn [app] in *. destruct (L x) as [La Lb]; [done|]. destruct (L2 x) as [Lc Ld].
        { intros Hx'. apply Hx. apply elem_of_app. by right. }
        split; congruence.
Qed.

(** Before the first scope. *)
Lemma split_before rest : forall f s pre g gs, SpecNode.wf (p_heap s) ->
  chain (p_heap s) (pre ++ rest) -> p_head s = head (pre ++ rest) -> p_k s = SUnknown -> p_scs s = [] -> p_reset s = [] ->
  pieces (p_heap s) (p_line s) rest g gs -> length rest < f ->
  exists h', finish (split_iter f (head rest) s) = Ok (h', map (scope_of h') gs, map head gs) /\
    SpecNode.wf h' /\ same_payload (p_heap s) h' /\ chain h' (pre ++ g) /\ Forall (chain h') gs /\
    (forall zs, chain (p_heap s) zs -> (forall l, l ∈ zs -> l ∉ pre ++ rest) -> chain h' zs) /\
    (forall l, l ∉ pre ++ rest -> same_links (p_heap s) h' l).
Proof.
  induction rest as [|l rest IH]; intros f s pre g gs W C Hh Hk H1 H2 P F.
  - inversion P; subst. rewrite app_nil_r in *. exists (p_heap s).
    assert (Pn : prev_of (p_heap s) (p_head s) = None).
    { rewrite Hh. destruct pre as [|a pre]; [done|]. cbn. apply (chain_prev (p_heap s) [] a pre C). }
    destruct f as [|f]; [lia|]. unfold split_iter, iter_next. cbn [head hd_error loop finish res_bind].
    unfold try_append. rewrite Hk, Pn. cbn. rewrite H1, H2. split_and!; try done.
  - destruct f as [|f]; [simpl in F; lia|]. cbn [head hd_error]. rewrite split_iter_cons.
    assert (Nx : next_of (p_heap s) (Some l) = head rest) by (by apply (chain_next (p_heap s) pre l rest)).
    inversion P as [|? ? ? g' ? N P'|? ? ? g' gs' N P']; subst.
    + rewrite (split_step_inside l s N). cbn [fst p_heap]. rewrite Nx.
      destruct (IH f (mkP (p_heap s) (p_scs s) (p_reset s) (p_head s) (p_k s) (line_of (p_heap s) (Some l))) (pre ++ [l]) g' gs) as
        (h' & E & W' & SP & C1 & C2 & Z & L); cbn [p_heap p_line p_k p_head p_scs p_reset]; try done.
      { by rewrite <- app_assoc. } { by rewrite <- app_assoc. } { simpl in F. lia. }
      cbn [p_heap p_scs p_reset app] in *. rewrite <- !app_assoc in *. cbn [app] in *. exists h'. split_and!; done.
    + destruct (split_step_start l s N) as [-> NU']. cbn [fst p_heap].
      assert (Pn : prev_of (p_heap s) (p_head s) = None).
      { rewrite Hh. destruct pre as [|a pre]; cbn; [apply (chain_prev (p_heap s) [] l rest C)|apply (chain_prev (p_heap s) [] a _ C)]. }
      assert (E1 : try_append s = mkP (p_heap s) [] [] (p_head s) (p_k s) (p_line s)).
      { unfold try_append. rewrite Hk, Pn. cbn. by rewrite H1, H2. }
      rewrite E1. cbn [p_heap p_scs p_reset]. rewrite Nx.
      destruct (split_inside rest f (mkP (p_heap s) [] [] (Some l) (new_scope_kind (text_of (p_heap s) (Some l))) (line_of (p_heap s) (Some l))) pre l [] g' gs')
        as (h' & E & W' & SP & C1 & C2 & C3 & Z & L); cbn [p_heap p_line p_k p_head p_scs p_reset]; try done.
      { simpl in F. lia. }
      cbn [p_heap p_scs p_reset app] in *. exists h'. rewrite app_nil_r. split_and!; try done. by constructor.
Qed.

(** The split of a whole chain. *)
Lemma split_spec (h : heap) ls startLine g gs : SpecNode.wf h -> chain h ls -> pieces h (startLine - 1) ls g gs ->
  exists h', split_scopes h (head ls) startLine = Ok (h', map (scope_of h') gs, map head gs) /\
    SpecNode.wf h' /\ same_payload h h' /\ chain h' g /\ Forall (chain h') gs /\
    (forall zs, chain h zs -> (forall l, l ∈ zs -> l ∉ ls) -> chain h' zs) /\
    (forall l, l ∉ ls -> same_links h h' l).
Proof.
  intros W C P.
  assert (Ln : length ls < S (length h)) by (pose proof (NoDup_bound ls (length h) (chain_NoDup h ls C) (fun x Hx => valid_chain h ls x C Hx)); lia).
  apply (split_before ls (S (length h)) (mkP h [] [] (head ls) SUnknown (startLine - 1)) [] g gs); done.
Qed.
