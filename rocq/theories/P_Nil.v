(** C73: when Save, Description, Copy and Package return, and when they panic or
    run for ever: nil scopes and circular chains. *)
From Verif Require Import SpecAst NodeAcyc NodeIter NodeFinal NodeCopy NodeHist P_Node P_Ast.

(** The node is on a circular chain. *)
Definition on_ring (h : heap) (l : loc) : Prop := tc (nxt h) l l.

(** ** Every node is on a chain or on a circle *)
Fixpoint steps (h : heap) (n : nat) (p : ptr) : ptr := match n with O => p | Datatypes.S n => next_of h (steps h n p) end.
Lemma steps_S h n p : steps h (Datatypes.S n) p = steps h n (next_of h p).
Proof. induction n as [|n IH]; [done|]. cbn [steps] in *. by rewrite <- IH. Qed.
Lemma steps_seg h n : forall p, steps h n p = None -> exists ls, nseg h p ls None.
Proof.
  induction n as [|n IH]; intros p E; [exists []; exact E|]. rewrite steps_S in E. destruct p as [l|]; [|by exists []].
  destruct (IH _ E) as [ls Sg]. exists (l :: ls). by split.
Qed.
Lemma steps_tc h n : forall l m, steps h (Datatypes.S n) (Some l) = Some m -> tc (nxt h) l m.
Proof.
  induction n as [|n IH]; intros l m E; [by apply tc_once|]. cbn [steps] in E. destruct (steps h (Datatypes.S n) (Some l)) as [k|] eqn:Ek.
  - eapply tc_r; [by apply IH|]. cbn [steps] in Ek. rewrite Ek in E. exact E.
  - cbn [steps] in Ek. rewrite Ek in E. done.
Qed.
Lemma steps_valid h n : wf h -> forall p m, live h p -> steps h n p = Some m -> valid h m.
Proof.
  intros W. induction n as [|n IH]; intros p m L E; [cbn in E; by subst p|]. cbn [steps] in E. destruct (steps h n p) as [k|] eqn:Ek; [|done].
  by eapply (wf_next_valid _ W).
Qed.
Lemma steps_back h : wf h -> forall i j p m, steps h i p = Some m -> steps h (i + j) p = Some m -> steps h j p = p.
Proof.
  intros W i. induction i as [|i IH]; intros j p m E1 E2; [cbn [steps Nat.add] in *; congruence|].
  cbn [steps Nat.add] in E1, E2. destruct (steps h i p) as [a|] eqn:Ea; [|done]. destruct (steps h (i + j) p) as [b|] eqn:Eb; [|done].
  apply (wf_sym _ W) in E1, E2. rewrite E1 in E2. injection E2 as ->. by apply (IH j p b).
Qed.
Theorem C73_chain_or_ring : forall h l, wf h -> valid h l -> on_ring h l \/ exists us vs, chain h (us ++ l :: vs).
Proof.
  intros h l W V. set (n := length h). destruct (decide (Some l ∈ map (fun k => steps h k (Some l)) (seq 1 n))) as [I|N].
  - left. apply elem_of_list_fmap in I as (k & E & Hk). apply elem_of_seq in Hk. destruct k as [|k]; [lia|]. by apply (steps_tc h k).
  - right. assert (E : exists k, steps h k (Some l) = None).
    { destruct (steps h n (Some l)) as [m|] eqn:En; [exfalso|by exists n].
      assert (Al : forall k, k <= n -> exists x, steps h k (Some l) = Some x).
      { intros k Hk. destruct (steps h k (Some l)) as [x|] eqn:Ek; [by exists x|]. exfalso. assert (Z : forall d, steps h (d + k) (Some l) = None).
        { intros d. induction d as [|d IHd]; [exact Ek|]. cbn [steps Nat.add]. rewrite IHd. done. }
        specialize (Z (n - k)). replace (n - k + k) with n in Z by lia. congruence. }
      set (xs := map (fun k => default 0 (steps h k (Some l))) (seq 0 (Datatypes.S n))).
      assert (B : length xs <= length h).
      { apply NoDup_bound.
        - apply NoDup_alt. intros i j x Ei Ej. unfold xs in *.
          assert (Q : forall i, map (fun k => default 0 (steps h k (Some l))) (seq 0 (Datatypes.S n)) !! i = Some x -> i <= n /\ steps h i (Some l) = Some x).
          { clear i j Ei Ej. intros i Ei. apply list_lookup_fmap_inv in Ei as (k & -> & Ek). apply lookup_seq in Ek as [-> Hk]. cbn [Nat.add] in *. split; [lia|]. destruct (Al i) as [y Ey]; [lia|]. rewrite Ey. done. }
          destruct (Q _ Ei) as [Li Si], (Q _ Ej) as [Lj Sj]. destruct (Nat.lt_trichotomy i j) as [C|[C|C]]; [exfalso|done|exfalso]; apply N.
          + replace j with (i + (j - i)) in Sj by lia. apply elem_of_list_fmap. exists (j - i). split; [symmetry; exact (steps_back h W _ _ _ _ Si Sj)|]. apply elem_of_seq. lia.
          + replace i with (j + (i - j)) in Si by lia. apply elem_of_list_fmap. exists (i - j). split; [symmetry; exact (steps_back h W _ _ _ _ Sj Si)|]. apply elem_of_seq. lia.
        - intros x Hx. apply elem_of_list_fmap in Hx as (k & -> & Hk). apply elem_of_seq in Hk. destruct (Al k) as [y Ey]; [lia|]. rewrite Ey. cbn [default]. by eapply (steps_valid h k W (Some l)). }
      unfold xs in B. rewrite fmap_length, seq_length in B. fold n in B. lia. }
    destruct E as [k E]. destruct (steps_seg h k _ E) as [ls Sg]. destruct ls as [|x ys]; [discriminate Sg|]. destruct Sg as [[= <-] Sg].
    assert (Vs : forall (us : list loc) p, live h p -> nseg h p us None -> forall x, x ∈ us -> valid h x).
    { induction us as [|u us IH]; intros p Lp Su x Hx; [by apply elem_of_nil in Hx|]. destruct Su as [-> Su]. apply elem_of_cons in Hx as [->|Hx]; [done|].
      eapply IH; [|exact Su|exact Hx]. destruct (next_of h (Some u)) eqn:Eu; [|done]. by eapply (wf_next_valid _ W). }
    assert (G : forall k a ms, length h - length ms <= k -> nseg h (Some a) (a :: ms) None -> (forall x, x ∈ a :: ms -> valid h x) -> exists zs, chain h (zs ++ a :: ms)).
    { clear k E ys Sg. induction k as [|k IH]; intros a ms Hk Sa Va.
      - exfalso. pose proof (NoDup_bound (a :: ms) (length h) (nseg_NoDup _ _ _ Sa) Va) as B. simpl in B. lia.
      - destruct (prev_of h (Some a)) as [p|] eqn:E.
        + apply (wf_sym _ W) in E as E'.
          assert (Sp : nseg h (Some p) (p :: a :: ms) None) by (split; [done|]; rewrite E'; exact Sa).
          assert (Vp : forall x, x ∈ p :: a :: ms -> valid h x) by (intros y [->|Hy]%elem_of_cons; [by eapply (wf_prev_valid _ W)|auto]).
          pose proof (NoDup_bound (a :: ms) (length h) (nseg_NoDup _ _ _ Sa) Va) as B. simpl in B.
          destruct (IH p (a :: ms)) as [zs Z]; [simpl; lia|done|done|]. exists (zs ++ [p]). rewrite <- app_assoc. exact Z.
        + exists []. apply chain_intro; auto. }
    destruct (G (length h) l ys) as [zs Z]; [lia|by split| |by eauto]. apply (Vs (l :: ys) (Some l)); [exact V|by split].
Qed.
Lemma ring_no_chain h l us vs : on_ring h l -> chain h (us ++ l :: vs) -> False.
Proof.
  intros T C. assert (Sg : nseg h (Some l) (l :: vs) None) by (eapply nseg_suffix, seg_nseg, C).
  pose proof (tc_forward _ _ _ _ T Sg) as Hl. apply chain_NoDup in C. apply NoDup_app in C as (_ & _ & C). by apply NoDup_cons in C as [? _].
Qed.

(** ** The lists of scopes *)
(** The first scope of the list that is nil or whose node is on a circle. *)
Inductive first_bad (h : heap) : list (option scope) -> option scope -> Prop :=
| fb_nil r : first_bad h (None :: r) None
| fb_ring sc l r : sc_node sc = Some l -> on_ring h l -> first_bad h (Some sc :: r) (Some sc)
| fb_later sc ls r b : scope_nodes h sc ls -> first_bad h r b -> first_bad h (Some sc :: r) b.
Definition nodes_exist (h : heap) (scs : list (option scope)) : Prop := forall sc, Some sc ∈ scs -> live h (sc_node sc).
Theorem C73_good_or_bad : forall h scs, wf h -> nodes_exist h scs -> (exists lss, all_nodes h scs lss) \/ exists b, first_bad h scs b.
Proof.
  intros h scs W. induction scs as [|[sc|] scs IH]; intros N; [left; exists []; constructor| |right; eexists; constructor].
  destruct (sc_node sc) as [l|] eqn:En.
  - assert (V : valid h l) by (specialize (N sc ltac:(left)); by rewrite En in N). destruct (C73_chain_or_ring h l W V) as [R|(us & vs & C)]; [right; exists (Some sc); eapply fb_ring; [exact En|exact R]|].
    destruct IH as [[lss A]|[b B]]; [intros s Hs; apply N; by right|left|right; exists b; eapply (fb_later h sc (l :: vs)); [|done]; split; [done|by exists us]].
    exists ((l :: vs) :: lss). constructor; [|done]. exists sc. split; [done|]. split; [done|by exists us].
  - destruct IH as [[lss A]|[b B]]; [intros s Hs; apply N; by right|left|right; exists b; eapply (fb_later h sc []); [|done]; split; [done|by exists []]].
    exists ([] :: lss). constructor; [|done]. exists sc. split; [done|]. split; [done|by exists []].
Qed.
Lemma ring_scan {A} h l (fn : loc -> A -> A) (a : A) : on_ring h l -> scan_next h (Some l) (fun l a => (fn l a, true)) a = OutOfFuel.
Proof.
  intros T. unfold scan_next. pose proof (C09_cycle_diverges (heap * A) fst h (fun l s => Ok ((fst s, fn l (snd s)), true)) l (h, a) T eq_refl) as D.
  assert (Hf : forall x (s : heap * A), fst s = h -> exists s', Ok ((fst s, fn x (snd s)), true) = Ok (s', true) /\ fst s' = h) by (intros x [h0 b] E; by eexists).
  specialize (D Hf (Datatypes.S (length h))). unfold iter_next in D. revert D. generalize (Datatypes.S (length h)) as f. generalize (Some l) as p. clear l T. intros p f. revert p a.
  induction f as [|f IH]; intros [l|] a; cbn [loop fst snd]; try done. intros D. by apply IH.
Qed.
(** Save, Description: panic at a nil scope, before any file is touched; on a
    circle the loop does not end, however long it is given ([C73_ring_for_ever]). *)
Theorem C73_ring_for_ever : forall h (A : Type) (f : loc -> A -> A) l a fuel, on_ring h l ->
  loop fuel (fun (_ : A) l => next_of h (Some l)) (fun l a => Ok (f l a, true)) (Some l) a = OutOfFuel.
Proof.
  intros h A fn l a f T. revert a. revert l T. induction f as [|f IH]; intros l T a; [done|]. cbn [loop].
  assert (exists b, nxt h l b) as [b Nb] by (inversion T; subst; eauto). unfold nxt in Nb. rewrite Nb. apply IH. eapply cycle_forward; [exact T|]. by apply rtc_once.
Qed.
Theorem C73_save : forall e f h m a file autoImport b, first_bad h (elems m (a_scope a)) b ->
  ast_save e f h m a file autoImport = match b with None => Panic | Some _ => OutOfFuel end.
Proof.
  intros e f h m a file ai b B. unfold ast_save. assert (E : save_text h (elems m (a_scope a)) = match b with None => Panic | Some _ => OutOfFuel end); [|rewrite E; by destruct b].
  induction B as [r|sc l r En R|sc ls r b SN B IH]; [done|..]; cbn [save_text]; unfold chain_text.
  - rewrite En. by rewrite (ring_scan h l (fun l acc => acc ++ text_of h (Some l)) [] R).
  - rewrite (scan_nodes h sc ls _ _ SN). cbn [res_bind]. rewrite IH. by destruct b.
Qed.
Theorem C73_description : forall h scs b, first_bad h scs b -> ast_description h scs = match b with None => Panic | Some _ => OutOfFuel end.
Proof.
  intros h scs b B. induction B as [r|sc l r En R|sc ls r b SN B IH]; [done|..]; cbn [ast_description].
  - rewrite En. by rewrite (ring_scan h l (fun l acc => acc ++ description h (Some l)) [] R).
  - rewrite (scan_nodes h sc ls _ _ SN). cbn [res_bind]. rewrite IH. by destruct b.
Qed.
(** Copy: nothing is returned either. *)
Lemma ring_extend h h' l : h `prefix_of` h' -> on_ring h l -> on_ring h' l.
Proof.
  intros [k ->] T. unfold on_ring in *. apply (tc_mono (nxt h)); [|done]. intros a b N. unfold nxt in *. rewrite <- N. apply field_app.
  unfold valid. destruct (decide (a < length h)) as [|Nv]; [done|]. exfalso. unfold next_of in N. by rewrite field_out in N.
Qed.
Lemma first_bad_extend h h' scs b : h `prefix_of` h' -> first_bad h scs b -> first_bad h' scs b.
Proof.
  intros P B. induction B as [r|sc l r En R|sc ls r b [En [pre C]] B IH]; [constructor|eapply fb_ring; [exact En|by eapply ring_extend]|].
  eapply fb_later; [|done]. split; [done|]. exists pre. by eapply chain_extend.
Qed.
Lemma copy_scopes_bad b scs : forall h, wf h -> nodes_exist h scs -> first_bad h scs b -> copy_scopes h scs = match b with None => Panic | Some _ => OutOfFuel end.
Proof.
  induction scs as [|o scs IH]; intros h W N B; [inversion B|].
  assert (Cases : (o = None /\ b = None) \/ exists sc, o = Some sc /\ ((exists l, sc_node sc = Some l /\ on_ring h l /\ b = Some sc) \/ ((exists ls, scope_nodes h sc ls) /\ first_bad h scs b))).
  { inversion B as [r|sc l r En R|sc ls r b0 SN B']; subst; [by left|right; exists sc; split; [done|left; by exists l]|right; exists sc; split; [done|right; split; [by exists ls|done]]]. }
  clear B. destruct Cases as [[-> ->]|(sc & -> & [(l & En & R & ->)|[[ls SN] B]])]; [done|..]; cbn [copy_scopes].
  - unfold scope_copy. rewrite En. destruct (copy h (Some l) true) as [[h' r]| |] eqn:Ec; [exfalso|exfalso|done].
    + assert (V : valid h l) by (specialize (N sc ltac:(left)); by rewrite En in N). destruct (copy_inv h l h' r W V Ec) as (xs & ys & C). by eapply ring_no_chain.
    + unfold copy in Ec. by apply deep_copy_no_panic in Ec.
  - destruct (scope_copy_spec h sc ls SN) as (h' & sc' & ls' & Ec & P & _). rewrite Ec. cbn [res_bind].
    assert (W' : wf h').
    { unfold scope_copy in Ec. destruct (copy h (sc_node sc) true) as [[h2 r]| |] eqn:E2; try discriminate Ec. injection Ec as <- _.
      eapply wf_copy; [exact W| |exact E2]. apply (N sc). by left. }
    rewrite (IH h' W'); [by destruct b| |by eapply first_bad_extend].
    intros s Hs. pose proof (N s ltac:(by right)) as Ls. destruct (sc_node s) as [x|]; [|done]. unfold live, valid in *. apply prefix_length in P. cbn in *. lia.
Qed.
Theorem C73_copy : forall h m a b, wf h -> nodes_exist h (elems m (a_scope a)) -> first_bad h (elems m (a_scope a)) b ->
  ast_copy h m a = match b with None => Panic | Some _ => OutOfFuel end.
Proof. intros h m a b W N B. unfold ast_copy. rewrite (copy_scopes_bad b _ h W N B). by destruct b. Qed.
(** So these three return exactly if no scope is nil and none is on a circle. *)
Lemma good_not_bad h scs lss b : all_nodes h scs lss -> first_bad h scs b -> False.
Proof.
  intros A B. revert lss A. induction B as [r|sc l r En R|sc ls r b SN B IH]; intros lss A; apply Forall2_cons_inv_l in A as (ls0 & lss' & (sc0 & E & En0 & pre & C) & A & _); try done.
  - injection E as <-. rewrite En in En0. destruct ls0 as [|x ls0]; [done|]. injection En0 as <-. by eapply ring_no_chain.
  - by eapply IH.
Qed.
Theorem C73_returns : forall e f h m a file autoImport, wf h -> nodes_exist h (elems m (a_scope a)) ->
  let good := forall o, o ∈ elems m (a_scope a) -> exists sc, o = Some sc /\ forall l, sc_node sc = Some l -> ~ on_ring h l in
  ((exists r, ast_save e f h m a file autoImport = Ok r) <-> good) /\
  ((exists r, ast_description h (elems m (a_scope a)) = Ok r) <-> good) /\
  ((exists r, ast_copy h m a = Ok r) <-> good).
Proof.
  intros e f h m a file ai W N good.
  assert (G : good <-> exists lss, all_nodes h (elems m (a_scope a)) lss).
  { unfold good. clear good. split.
    - intros Hg. destruct (C73_good_or_bad h _ W N) as [A|[b B]]; [done|exfalso]. clear N. induction B as [r|sc l r En R|sc ls r b SN B IH].
      + destruct (Hg None) as (sc & ? & _); [by left|done].
      + destruct (Hg (Some sc)) as (sc' & E & Hr); [by left|]. injection E as <-. by apply (Hr l).
      + apply IH. intros o Ho. apply Hg. by right.
    - intros [lss A] o Ho. apply elem_of_list_lookup in Ho as [i Hi]. destruct (Forall2_lookup_l _ _ _ _ _ A Hi) as (ls & _ & sc & -> & En & pre & C).
      exists sc. split; [done|]. intros l El R. rewrite El in En. destruct ls as [|x ls]; [done|]. injection En as <-. by eapply ring_no_chain. }
  destruct (C73_good_or_bad h _ W N) as [[lss A]|[b B]].
  - assert (Y : good) by (apply G; by exists lss). split; [|split]; (split; [intros _; exact Y|intros _]).
    + unfold ast_save. rewrite (save_text_spec h _ lss A). cbn [res_bind]. by eexists.
    + clear -A. induction A as [|o ls scs lss (sc & -> & SN) A [r IH]]; [by eexists|]. cbn [ast_description]. rewrite (scan_nodes h sc ls _ _ SN). cbn [res_bind]. rewrite IH. by eexists.
    + unfold ast_copy. destruct (copy_scopes_spec _ h lss A) as (h' & scs' & lss' & E & _). rewrite E. by eexists.
  - assert (Y : ~ good) by (intros Y; apply G in Y as [lss A]; by eapply good_not_bad). split; [|split]; (split; [intros [r E]|done]); exfalso.
    + rewrite (C73_save e f h m a file ai b B) in E. by destruct b.
    + rewrite (C73_description h _ b B) in E. by destruct b.
    + rewrite (C73_copy h m a b W N B) in E. by destruct b.
Qed.
(** Package and NewAst look at the scopes up to the first package clause only. *)
Theorem C73_package : forall h xs o ys, (forall x, x ∈ xs -> exists sc, x = Some sc /\ sc_kind sc <> SPackage) ->
  (o = None -> find_package_name h (xs ++ o :: ys) = Panic) /\
  (forall sc, o = Some sc -> sc_kind sc = SPackage -> find_package_name h (xs ++ o :: ys) = find_package_name h [o]) /\
  find_package_name h xs = Ok (inr ErrNoPackage).
Proof.
  intros h xs o ys Hx. assert (P : forall zs, find_package_scope (xs ++ zs) = find_package_scope zs).
  { intros zs. induction xs as [|x xs IH]; [done|]. destruct (Hx x) as (sc & -> & Nk); [by left|]. cbn [app find_package_scope].
    destruct (str_eqb (sc_kind sc) SPackage) eqn:E; [by apply bool_decide_eq_true in E|]. apply IH. intros y Hy. apply Hx. by right. }
  unfold find_package_name. split; [|split].
  - intros ->. by rewrite P.
  - intros sc -> Ek. rewrite P. cbn [find_package_scope]. rewrite Ek. reflexivity.
  - rewrite <- (app_nil_r xs) at 1. by rewrite P.
Qed.
(** The hypotheses are met: an ast with a circular scope and a nil one, in either order. *)
Definition ex_ring : heap := [mkNode 0 KRaw $"a" (Some 1) (Some 1); mkNode 0 KRaw $"b" (Some 0) (Some 0); mkNode 0 KPackage $"package" None None].
Example ex_C73 : wf ex_ring /\ on_ring ex_ring 0 /\
  let sr := Some (mkScope 0 SFunc (Some 0)) in let sp := Some (mkScope 0 SPackage (Some 2)) in
  first_bad ex_ring [sp; sr; None] sr /\ first_bad ex_ring [sp; None; sr] None /\ nodes_exist ex_ring [sp; sr; None].
Proof.
  assert (R : on_ring ex_ring 0) by (eapply tc_l; [|apply tc_once]; [instantiate (1 := 1)|]; by vm_compute).
  assert (C : scope_nodes ex_ring (mkScope 0 SPackage (Some 2)) [2]) by (split; [done|exists []; chain_ex]).
  split; [|split; [done|]]; [|split; [|split]].
  - split.
    + intros [|[|[|?]]] [|[|[|?]]]; cbn; split; try done; intros E; try (injection E as E; try done).
    + intros [|[|[|?]]]; cbn; done.
    + intros [|[|[|?]]] [|[|[|?]]]; cbn; try done; unfold valid; cbn; intros; lia.
    + intros [|[|[|?]]] [|[|[|?]]]; cbn; try done; unfold valid; cbn; intros; lia.
  - eapply fb_later; [exact C|]. apply (fb_ring _ _ 0); [reflexivity|exact R].
  - eapply fb_later; [exact C|]. constructor.
  - intros sc Hs. repeat (apply elem_of_cons in Hs as [Hs|Hs]); try (by apply elem_of_nil in Hs); try done; injection Hs as ->; unfold live, valid; cbn; lia.
Qed.
