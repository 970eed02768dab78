(** A canonical heap for a list of texts and kinds, and what refining it says
    about every other heap with such a chain. *)
From Verif Require Import Reset ResetSpec SpecAst Local.

Definition canon_node (n i : nat) (p : str * kind) : node :=
  mkNode 0 (snd p) (fst p) (match i with O => None | Datatypes.S j => Some j end) (if Nat.ltb (Datatypes.S i) n then Some (Datatypes.S i) else None).
Definition canon (ps : list (str * kind)) : heap := imap (canon_node (length ps)) ps.
Lemma canon_at ps i : canon ps !! i = canon_node (length ps) i <$> ps !! i.
Proof. unfold canon. by rewrite list_lookup_imap. Qed.
Lemma canon_len ps : length (canon ps) = length ps.
Proof. unfold canon. by rewrite imap_length. Qed.
Lemma canon_next ps i : next_of (canon ps) (Some i) = if Nat.ltb (S i) (length ps) then Some (S i) else None.
Proof.
  unfold next_of, field. rewrite canon_at. destruct (ps !! i) eqn:E; cbn [fmap option_fmap option_map n_next canon_node]; [done|]. apply lookup_ge_None in E.
  destruct (Nat.ltb_spec (S i) (length ps)); [lia|done].
Qed.
Lemma canon_prev ps i : prev_of (canon ps) (Some i) = if Nat.ltb i (length ps) then match i with O => None | S j => Some j end else None.
Proof.
  unfold prev_of, field. rewrite canon_at. destruct (ps !! i) eqn:E; cbn [fmap option_fmap option_map n_prev canon_node].
  - apply lookup_lt_Some in E. by destruct (Nat.ltb_spec i (length ps)); [|lia].
  - apply lookup_ge_None in E. by destruct (Nat.ltb_spec i (length ps)); [lia|].
Qed.
Lemma canon_wf ps : SpecNode.wf (canon ps).
Proof.
  constructor.
  - intros a b. rewrite canon_next, canon_prev. destruct (Nat.ltb_spec (S a) (length ps)), (Nat.ltb_spec b (length ps)); split; intros E; try done.
    + by injection E as <-.
    + destruct b; [done|]. by injection E as ->.
    + injection E as <-. lia.
    + destruct b; [done|]. injection E as ->. lia.
  - intros a. rewrite canon_next. destruct (Nat.ltb_spec (S a) (length ps)); [|done]. intros E. injection E as E. lia.
  - intros a b. rewrite canon_next. unfold valid. rewrite canon_len. destruct (Nat.ltb_spec (S a) (length ps)); [|done]. intros E. injection E as <-. done.
  - intros a b. rewrite canon_prev. unfold valid. rewrite canon_len. destruct (Nat.ltb_spec a (length ps)); [|done]. destruct a; [done|]. intros E. injection E as <-. lia.
Qed.
Lemma canon_seg ps n : forall i p, length ps = i + n -> p = match i with O => None | S j => Some j end -> seg (canon ps) p (seq i n) None.
Proof.
  induction n as [|n IH]; intros i p L ->; [done|]. cbn [seq seg]. split; [unfold valid; rewrite canon_len; lia|].
  split; [rewrite canon_prev; destruct (Nat.ltb_spec i (length ps)); [done|lia]|]. split.
  - rewrite canon_next. destruct n; cbn [seq]; destruct (Nat.ltb_spec (S i) (length ps)); try done; lia.
  - apply IH; [lia|done].
Qed.
Lemma canon_chain ps : chain (canon ps) (seq 0 (length ps)).
Proof. by apply canon_seg. Qed.

(** Chains, position by position. *)
Lemma chain_next_at h g i l : chain h g -> g !! i = Some l -> next_of h (Some l) = g !! S i.
Proof.
  intros C E. apply elem_of_list_split_length in E as (xs & ys & -> & ->). rewrite (chain_next h xs l ys C).
  rewrite lookup_app_r by lia. replace (S (length xs) - length xs) with 1 by lia. by destruct ys.
Qed.
Lemma chain_prev_at h g i l : chain h g -> g !! i = Some l -> prev_of h (Some l) = match i with O => None | S j => g !! j end.
Proof.
  intros C E. destruct i as [|j].
  - destruct g; [done|]. injection E as ->. by destruct C as (_ & P & _).
  - destruct (lookup_lt_is_Some_2 g j) as [m Em]; [apply lookup_lt_Some in E; lia|]. rewrite Em.
    pose proof (chain_next_at h g j m C Em) as N. rewrite E in N. clear E.
    apply elem_of_list_split_length in Em as (xs & ys & -> & ->). destruct ys as [|y ys]; [rewrite (chain_next h xs m [] C) in N; done|].
    rewrite (chain_next h xs m _ C) in N. injection N as ->. change (xs ++ m :: l :: ys) with (xs ++ [m] ++ l :: ys) in C. rewrite app_assoc in C.
    rewrite (seg_prev _ _ _ _ _ _ C). by rewrite last_ptr_snoc.
Qed.

Lemma app_eq (a b c d : str) : a = b -> c = d -> a ++ c = b ++ d.
Proof. by intros -> ->. Qed.
Definition rho (h : heap) (g : list loc) (i : nat) : nat := default (length h + i) (g !! i).
Definition look (h : heap) (l : loc) : str * kind := (text_of h (Some l), kind_of h (Some l)).
Lemma rho_inj h g : chain h g -> forall a b, rho h g a = rho h g b -> a = b.
Proof.
  intros C a b. unfold rho. destruct (g !! a) as [x|] eqn:Ea, (g !! b) as [y|] eqn:Eb; cbn; intros E.
  - subst. eapply NoDup_lookup; [eapply chain_NoDup, C|done|done].
  - assert (V : valid h x) by (eapply valid_chain; [exact C|by eapply elem_of_list_lookup_2]). unfold valid in V. lia.
  - assert (V : valid h y) by (eapply valid_chain; [exact C|by eapply elem_of_list_lookup_2]). unfold valid in V. lia.
  - lia.
Qed.
Lemma rho_ge h g i : length g <= i -> rho h g i = length h + i.
Proof. intros L. unfold rho. by rewrite lookup_ge_None_2. Qed.
Lemma canon_rel h g : chain h g -> Rh eq (rho h g) (canon (map (look h) g)) h.
Proof.
  intros C. constructor.
  - intros i. rewrite canon_at, list_lookup_fmap, map_length. destruct (g !! i) as [l|] eqn:E; cbn [fmap option_fmap option_map].
    + assert (Hr : rho h g i = l) by (unfold rho; by rewrite E). rewrite Hr.
      assert (V : valid h l) by (eapply valid_chain; [exact C|by eapply elem_of_list_lookup_2]).
      pose proof (chain_next_at h g i l C E) as N. pose proof (chain_prev_at h g i l C E) as P.
      unfold next_of, prev_of, field in N, P. unfold look, text_of, kind_of, field. apply lookup_lt_is_Some_2 in V as [nd Hn]. rewrite Hn in *. unfold Ro.
      unfold canon_node. constructor; cbn [n_kind n_text n_prev n_next fst snd]; try done; unfold Rp.
      * rewrite P. destruct i as [|j]; cbn; [done|]. unfold rho. destruct (lookup_lt_is_Some_2 g j) as [m Em]; [apply lookup_lt_Some in E; lia|]. by rewrite Em.
      * rewrite N. destruct (Nat.ltb_spec (S i) (length g)) as [L|L]; cbn [fmap option_fmap option_map].
        -- unfold rho. destruct (lookup_lt_is_Some_2 g (S i) L) as [m Em]. by rewrite Em.
        -- by apply lookup_ge_None_2.
    + apply lookup_ge_None in E. rewrite rho_ge by done. by rewrite lookup_ge_None_2 by lia.
  - rewrite canon_len, map_length. apply (NoDup_bound g (length h)); [eapply chain_NoDup, C|]. intros x Hx. by apply (valid_chain h g x C).
Qed.

(** The nodes of a chain after refining its texts and kinds: positions and what
    each then looks like. *)
Definition after (ps : list (str * kind)) (js : list nat) (qs : list (str * kind)) : Prop :=
  exists s r, reset_kind (reset_fuel (canon ps)) (head (seq 0 (length ps))) (mkSt (canon ps) []) = Ok (s, r) /\
    chain (s_heap s) js /\ head js = head (seq 0 (length ps)) /\ js `sublist_of` seq 0 (length ps) /\ qs = map (look (s_heap s)) js.
Lemma after_total ps : exists js qs, after ps js qs.
Proof.
  destruct (reset_base (canon ps) (seq 0 (length ps)) [] (canon_wf ps) (canon_chain ps)) as (s & r & E & B).
  destruct (base_chain _ _ (canon_wf ps) (canon_chain ps) _ B) as (js & C & Sub & Hd). by eexists js, _, s, r.
Qed.
Lemma refined_after h h' g js qs cur : SpecNode.wf h' -> refined_from h h' g -> after (map (look h) g) js qs -> chain h' cur -> head cur = head g ->
  map (look h') cur = qs /\ Forall2 (fun j l => g !! j = Some l) js cur.
Proof.
  intros W' [(h1 & s & r & W1 & L1 & C1 & E1 & Er & B1 & Eg & Ll)] (sc & rc & Ec & Cj & Hj & Sj & ->) Cc Hc.
  assert (Lk : map (look h1) g = map (look h) g).
  { apply map_ext_in. intros l Hl%elem_of_list_In. unfold look, text_of, kind_of. f_equal; apply field_ext; by apply E1. }
  rewrite <- Lk in *. rewrite map_length in *.
  pose proof (canon_rel h1 g C1) as R0.
  assert (Lf : reset_fuel (canon (map (look h1) g)) <= reset_fuel h1) by (pose proof (rh_len _ _ _ _ R0); unfold reset_fuel; lia).
  assert (Ph : Rp (rho h1 g) (head (seq 0 (length g))) (head g)) by (by destruct g).
  destruct (sim_reset eq eq_refl app_eq (rho h1 g) (rho_inj h1 g C1) _ _ _ _ Lf Ph (mkSt (canon (map (look h1) g)) []) (mkSt h1 []) sc rc) as (s2 & r2 & E2 & R2 & _); [constructor; [exact R0|constructor]|exact Ec|].
  rewrite Er in E2. injection E2 as <- <-. pose proof (rs_heap _ _ _ _ R2) as Rh2.
  assert (Hin : Forall (fun j => j < length g) js).
  { apply Forall_forall. intros j Hjj. apply (sublist_in _ _ _ Sj) in Hjj. apply elem_of_seq in Hjj. lia. }
  (* the image of js is the chain of cur *)
  assert (Nj : forall p ms, Forall (fun j => j < length g) ms -> nseg (s_heap sc) p ms None -> nseg h' (rho h1 g <$> p) (map (rho h1 g) ms) None).
  { intros p ms F. revert p. induction F as [|j ms Lj F IH]; intros p; cbn [nseg map].
    - by intros ->.
    - intros [-> N]. split; [done|]. destruct (lookup_lt_is_Some_2 g j Lj) as [l El].
      assert (Hr : rho h1 g j = l) by (unfold rho; by rewrite El).
      pose proof (Rnext _ _ _ _ _ _ Rh2 (Rp_some (rho h1 g) j)) as Q. unfold Rp in Q. rewrite Hr in Q.
      assert (Q' : next_of h' (Some l) = next_of (s_heap s) (Some l)) by (apply field_ext, Eg; by eapply elem_of_list_lookup_2).
      rewrite Hr, Q', Q. by apply IH. }
  assert (Ecur : map (rho h1 g) js = cur).
  { apply (nseg_det h' (head cur)).
    - assert (Hd : head cur = rho h1 g <$> head js) by (rewrite Hc, Hj; exact Ph).
      rewrite Hd. apply Nj; [done|]. destruct js as [|j js]; [done|]. exact (seg_nseg _ _ _ _ Cj).
    - destruct cur as [|c cur]; [done|]. exact (seg_nseg _ _ _ _ Cc). }
  subst cur. split.
  - rewrite map_map. apply map_ext_in. intros j Hjj%elem_of_list_In. rewrite Forall_forall in Hin. specialize (Hin j Hjj).
    destruct (lookup_lt_is_Some_2 g j Hin) as [l El]. assert (Hr : rho h1 g j = l) by (unfold rho; by rewrite El).
    rewrite Hr. unfold look. assert (Hl : l ∈ g) by (by eapply elem_of_list_lookup_2).
    pose proof (Rtext _ eq_refl _ _ _ _ _ Rh2 (Rp_some (rho h1 g) j)) as T. pose proof (Rkind _ _ _ _ _ _ Rh2 (Rp_some (rho h1 g) j)) as K. rewrite Hr in T, K.
    rewrite T, K. unfold text_of, kind_of. f_equal; apply field_ext, Eg; exact Hl.
  - apply Forall2_fmap_r. apply Forall_Forall2_diag. rewrite Forall_forall in Hin |- *. intros j Hjj. specialize (Hin j Hjj).
    destruct (lookup_lt_is_Some_2 g j Hin) as [l El]. assert (Hr : rho h1 g j = l) by (unfold rho; by rewrite El). unfold compose. rewrite Hr. exact El.
Qed.

(** Kinds decide what becomes of the nodes; texts are only put together. *)
Definition alike_look (T : str -> str -> Prop) (p q : str * kind) : Prop := T (fst p) (fst q) /\ snd p = snd q.
Lemma canon_alike T ps ps' : Forall2 (alike_look T) ps ps' -> Rh T id (canon ps) (canon ps').
Proof.
  intros F. pose proof (Forall2_length _ _ _ F) as L. constructor; [|by rewrite !canon_len, L].
  intros i. unfold id. rewrite !canon_at. rewrite L. destruct (ps !! i) as [p|] eqn:E.
  - destruct (Forall2_lookup_l _ _ _ _ _ F E) as (q & -> & [Hq Kq]). cbn [fmap option_fmap option_map Ro]. unfold canon_node.
    constructor; cbn [n_kind n_text n_prev n_next]; [by symmetry|exact Hq|unfold Rp; by destruct i|unfold Rp; by destruct (Nat.ltb _ _)].
  - apply lookup_ge_None in E. rewrite (lookup_ge_None_2 ps' i) by lia. done.
Qed.
Lemma after_alike (T : str -> str -> Prop) ps ps' js qs js' qs' : T [] [] -> (forall a b c d, T a b -> T c d -> T (a ++ c) (b ++ d)) ->
  Forall2 (alike_look T) ps ps' -> after ps js qs -> after ps' js' qs' -> js = js' /\ Forall2 (alike_look T) qs qs'.
Proof.
  intros Tn Ta F (s & r & E & C & Hd & _ & ->) (s' & r' & E' & C' & Hd' & _ & ->). pose proof (Forall2_length _ _ _ F) as L.
  pose proof (canon_alike T ps ps' F) as R0.
  assert (Lf : reset_fuel (canon ps) <= reset_fuel (canon ps')) by (pose proof (rh_len _ _ _ _ R0); unfold reset_fuel; lia).
  assert (Ph : Rp id (head (seq 0 (length ps))) (head (seq 0 (length ps')))) by (rewrite L; unfold Rp; by destruct (length ps')).
  destruct (sim_reset T Tn Ta id (fun a b (H : id a = id b) => H) _ _ _ _ Lf Ph (mkSt (canon ps) []) (mkSt (canon ps') []) s r) as (s2 & r2 & E2 & R2 & _); [constructor; [exact R0|constructor]|exact E|].
  rewrite E' in E2. injection E2 as <- <-. pose proof (rs_heap _ _ _ _ R2) as Rh2.
  assert (N : forall p ms, nseg (s_heap s) p ms None -> nseg (s_heap s') p ms None).
  { intros p ms. revert p. induction ms as [|m ms IH]; intros p; cbn [nseg]; [done|]. intros [-> N]. split; [done|].
    pose proof (Rnext _ _ _ _ _ _ Rh2 (Rp_some id m)) as Q. unfold Rp, id in Q. rewrite Q. destruct (next_of (s_heap s) (Some m)); by apply IH. }
  assert (js = js') as <-.
  { apply (nseg_det (s_heap s') (head js)).
    - apply N. destruct js; [done|]. exact (seg_nseg _ _ _ _ C).
    - rewrite Hd, L, <- Hd'. destruct js'; [done|]. exact (seg_nseg _ _ _ _ C'). }
  split; [done|]. apply Forall2_fmap. apply Forall_Forall2_diag, Forall_forall. intros j _. unfold look.
  split; cbn [fst snd]; [exact (Rtext _ Tn _ _ _ _ _ Rh2 (Rp_some id j))|exact (Rkind _ _ _ _ _ _ Rh2 (Rp_some id j))].
Qed.
