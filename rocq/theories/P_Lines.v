(** C62: where the scopes are in the source text. *)
From Verif Require Import SpecScope SpecAst Scope LexSpecProofs SplitProofs ResetSpec LexRun P_Lex P_Scope.

Lemma take_app_drop {A} (l : list A) i x : l !! i = Some x -> l = take i l ++ x :: drop (S i) l.
Proof. intros E. symmetry. by apply take_drop_middle. Qed.
Lemma concat_split {A} (l : list (list A)) i : concat l = concat (take i l) ++ concat (drop i l).
Proof. rewrite <- concat_app. by rewrite take_drop. Qed.
(** The tokens from some point on. *)
Lemma rest_tokens ord h text h1 xs l ys : any_order ord -> SpecNode.wf h -> tokenised ord h text h1 (xs ++ l :: ys) ->
  text = text_at h1 xs ++ text_at h1 (l :: ys) /\
  exists k r b, token (text_at h1 (l :: ys)) (text_of h1 (Some l)) k r /\ r = text_at h1 ys /\
    line_rule (count_nl (text_at h1 xs)) b (text_of h1 (Some l)) (line_of h1 (Some l)).
Proof.
  intros O W Tk. pose proof (tokenised_tokens _ _ _ _ _ O W Tk) as T. rewrite map_app in T. unfold tokens in T.
  destruct (scan_split _ 0 0 [] text _ ltac:(constructor) T) as (b & st & s2 & E & _ & S).
  rewrite texts_map in *. fold (text_at h1 xs) in *.
  pose proof (scan_texts _ _ _ _ _ S) as Es. rewrite texts_map in Es. fold (text_at h1 (l :: ys)) in Es. subst s2.
  split; [done|]. cbn [map] in S. inversion S as [|? ? ? ? t k r m b' st' ts Tt L B S']; subst.
  exists (kind_of h1 (Some l)), r, b. split; [done|]. rewrite Z.add_0_l in L. split; [|done].
  pose proof (token_text _ _ _ _ Tt) as Et. unfold text_at in Et. cbn [map concat] in Et. by apply app_inv_head in Et.
Qed.
(** Whether a token is cut off by the end of the text. *)
Lemma cut_dec s t k r : token s t k r ->
  ~ (exists d, cut_off d t) \/ (exists d, cut_off d s) \/ ((exists d, cut_off d t) /\ count_nl t = 0%Z).
Proof.
  intros T. destruct T as [c r Hc|w r Nw Hw Hr|d t r Nd Sh|t r Sh|d t C].
  - left. by apply sep_not_cut.
  - left. apply (word_not_cut w r); [done|]. exact Hw.
  - left. apply (closed_not_cut d). apply Sh.
  - right. right. destruct Sh as (_ & (b & Eb) & M). rewrite app_assoc in Eb. apply app_inj_tail in Eb as [-> _].
    assert (Nn : c_nl ∉ $"//" ++ b).
    { intros Hn. apply elem_of_list_split in Hn as (b1 & b2 & Eb). assert (exists b0, b1 = $"//" ++ b0) as [b0 ->].
      { destruct b1 as [|x [|y b1]]; [discriminate Eb|discriminate Eb|]. cbn in Eb. injection Eb as <- <- _. by exists b1. }
      specialize (M (($"//" ++ b0) ++ [c_nl])). rewrite Eb in M. feed specialize M.
      + exists (b2 ++ c_nl :: r). by rewrite <- !app_assoc.
      + exists b0. by rewrite <- app_assoc.
      + rewrite !app_length in M. cbn in M. rewrite ?app_length in M. cbn in M. lia. }
    split; [|by apply count_nl_none]. exists DLine. split; [by exists b|]. intros u Pu (b' & ->). apply Nn. destruct Pu as [q ->]. set_solver.
  - right. left. by exists d.
Qed.
Lemma no_empty {A} (ls : list (list A)) : (forall q, q ∈ ls -> q <> []) -> concat ls = [] -> ls = [].
Proof. destruct ls as [|q ls]; [done|]. intros H E. cbn in E. apply app_eq_nil in E as [-> _]. exfalso. by apply (H []); [left|]. Qed.
(** It is decided whether a text is a cut off comment or string. *)
Lemma cut_or s : (exists d, cut_off d s) \/ (forall d, ~ cut_off d s).
Proof.
  destruct (decide (s = [])) as [->|Ns].
  - right. intros d [[q Q] _]. by destruct d.
  - destruct (C30_tokens_total s) as [ts T]. inversion T as [|? ? ? ? t k r m b' st' ts' Tt]; subst; [done|].
    apply token_inv in Tt as [(c & Hc & E & _)|[(d & O & X)|(N & _)]].
    + right. subst s. intros d [P _]. apply (sep_no_open c r Hc). by exists d.
    + assert (U : forall d', cut_off d' s -> d' = d).
      { intros d' [[q Q] _]. destruct O as [q' Q']. rewrite Q' in Q. destruct d, d'; try done; discriminate Q. }
      destruct X as [(_ & Sh & _)|[(-> & Sh & _)|(C & _)]]; [right|right|left; by exists d].
      * intros d' C. pose proof (U d' C) as ->. by apply (shortest_not_cut _ _ _ Sh).
      * intros d' C. pose proof (U d' C) as ->. by apply (shortest_not_cut _ _ _ Sh).
    + right. intros d [P _]. apply N. by exists d.
Qed.
(** ** C62 *)
Theorem C62_scopes_in_source : forall ord h startLine text h' scs, any_order ord -> SpecNode.wf h ->
  parse_scope ord h startLine text = Ok (h', scs) ->
  exists pre bodies, text = pre ++ concat bodies /\ length bodies = length scs /\
    forall i sc body, scs !! i = Some sc -> bodies !! i = Some body ->
      let above := pre ++ concat (take i bodies) in
      let below := concat (drop i bodies) in
      begins (scope_kind_of (Some sc)) body /\
      ((forall d, ~ cut_off d below) -> scope_line (Some sc) = (count_nl above + 1)%Z) /\
      ((exists d, cut_off d below) -> scope_line (Some sc) = (count_nl text + 1)%Z /\ length scs = S i) /\
      (scope_kind_of (Some sc) <> SFunc -> scope_kind_of (Some sc) <> SType ->
         exists ns, chain h' ns /\ head ns = sc_node sc /\ text_at h' ns = body).
Proof.
  intros ord h n text h' scs O W E.
  destruct (C29_tokeniser_terminates ord h text O W) as (h1 & ls & Tk & _).
  destruct (parse_inv ord h n text h1 ls h' scs O W Tk E) as (h2 & g & gs & HP & -> & W1 & W' & SP & Ll & T & Cg & Cgs & O2 & O3 & R3).
  pose proof (pieces_concat _ _ _ _ _ HP) as El. pose proof (pieces_nonempty _ _ _ _ _ HP) as NE. rewrite Forall_forall in NE.
  destruct (C28_tokeniser_lossless ord h text h1 ls O W Tk) as [Et Nt]. fold (text_at h1 ls) in Et.
  exists (text_at h1 g), (map (text_at h1) gs). split; [|split].
  { rewrite <- Et, El. unfold text_at. rewrite map_app, concat_app. f_equal. clear. induction gs as [|p gs IH]; [done|]. cbn [concat map]. by rewrite map_app, concat_app, IH. }
  { by rewrite !map_length. }
  intros i sc body Es Eb. rewrite (list_lookup_fmap (scope_of h1)) in Es. rewrite (list_lookup_fmap (text_at h1)) in Eb. destruct (gs !! i) as [p|] eqn:Ep; [|done]. injection Es as <-. injection Eb as <-.
  assert (Hp : p ∈ gs) by (by eapply elem_of_list_lookup_2). pose proof (NE p Hp) as Np. destruct p as [|l p]; [done|].
  pose proof (take_app_drop _ _ _ Ep) as Eg.
  assert (Els : ls = (g ++ concat (take i gs)) ++ l :: (p ++ concat (drop (S i) gs))).
  { rewrite El. rewrite Eg at 1. rewrite concat_app. cbn [concat]. by rewrite <- !app_assoc. }
  assert (Tc : forall xs, text_at h1 (concat xs) = concat (map (text_at h1) xs)).
  { intros xs. unfold text_at. induction xs as [|x xs IH]; [done|]. cbn [concat map]. by rewrite map_app, concat_app, IH. }
  assert (Ta : forall xs ys, text_at h1 (xs ++ ys) = text_at h1 xs ++ text_at h1 ys).
  { intros xs ys. unfold text_at. by rewrite map_app, concat_app. }
  pose proof Tk as Tk'. rewrite Els in Tk'. destruct (rest_tokens _ _ _ _ _ _ _ O W Tk') as (E1 & k & r & b & Tok & Er & L).
  cbv zeta. rewrite <- fmap_take, <- fmap_drop. change (fmap (text_at h1)) with (map (text_at h1)). rewrite <- !Tc, <- Ta.
  assert (Eb : text_at h1 (concat (drop i gs)) = text_at h1 (l :: p ++ concat (drop (S i) gs))).
  { f_equal. rewrite (drop_S gs (l :: p) i Ep). done. }
  rewrite Eb.
  assert (Hd : exists prev, starts h1 prev l).
  { destruct (proj1 (pieces_heads h1 _ ls g gs l HP)) as (xs & ys & -> & St); [apply elem_of_list_fmap; by exists (l :: p)|]. by eexists. }
  destruct Hd as (prev & _ & kw & Bk).
  assert (Bg : begins (new_scope_kind (text_of h1 (Some l))) (text_of h1 (Some l))).
  { destruct (new_scope_kind_begins (text_of h1 (Some l))) as [[_ N]|[_ B']]; [by destruct (N kw)|done]. }
  assert (Nb : text_of h1 (Some l) <> $"(" /\ text_of h1 (Some l) <> $"{").
  { destruct Bk as [Hk Pk]. split; intros Q; rewrite Q in Pk; revert Hk Pk; clear; intros Hk [q Pk];
      (repeat (apply elem_of_cons in Hk as [->|Hk]; [discriminate Pk|])); by apply elem_of_nil in Hk. }
  cbn [scope_of scope_kind_of scope_line sc_kind sc_line new_scope sc_node head hd_error].
  split; [|split; [|split]].
  - destruct Bg as [Hk Pk]. split; [done|]. unfold text_at. cbn [map concat]. by apply prefix_app_r.
  - intros Nc. destruct L as (L1 & _ & L). f_equal. destruct (cut_dec _ _ _ _ Tok) as [Nd|[[d Hc]|(Ed & Z0)]].
    + by apply L; [|apply Nb|apply Nb].
    + by destruct (Nc d).
    + rewrite L1 by done. lia.
  - intros [d Cd]. destruct (token_unique _ _ _ _ _ _ _ Tok (tk_cut_off d _ Cd)) as (Et1 & _ & ->). destruct L as (L1 & _ & _).
    assert (Ny : p ++ concat (drop (S i) gs) = []).
    { destruct (p ++ concat (drop (S i) gs)) as [|y ys] eqn:Ey; [done|]. exfalso. unfold text_at in Er. cbn [map concat] in Er. symmetry in Er. apply app_eq_nil in Er as [Er _].
      apply (Nt y); [|done]. rewrite Els. apply elem_of_app. right. right. rewrite <- Ey. rewrite Ey. by left. }
    rewrite L1 by (exists d; by rewrite Et1). split.
    + rewrite E1, count_nl_app, <- Et1. done.
    + apply app_eq_nil in Ny as [_ Ny]. rewrite map_length. assert (Dn : drop (S i) gs = []).
      { apply (no_empty (drop (S i) gs)); [|done]. intros q Hq. apply NE. rewrite Eg. apply elem_of_app. right. by right. }
      rewrite Eg at 1. rewrite Dn, app_length, take_length. cbn. apply lookup_lt_Some in Ep. lia.
  - intros N1 N2. rewrite Forall_forall in R3, Cgs. destruct (refined_facts h2 h' (l :: p) W' (R3 _ Hp)) as (_ & _ & Un).
    assert (Hl : l ∈ ls) by (rewrite Els; apply elem_of_app; right; by left).
    assert (Eq : forall x, x ∈ l :: p -> h' !! x = h2 !! x).
    { apply Un.
      - intros K. change (head (l :: p)) with (Some l) in K. rewrite (proj1 (proj2 (proj2 SP (Some l)))) in K.
        pose proof (token_fixed h1 ls text l KFunc T Hl K ltac:(apply mem_kind_true; reflexivity)) as Et'. apply N1. rewrite Et'. reflexivity.
      - intros K. change (head (l :: p)) with (Some l) in K. rewrite (proj1 (proj2 (proj2 SP (Some l)))) in K.
        pose proof (token_fixed h1 ls text l KType T Hl K ltac:(apply mem_kind_true; reflexivity)) as Et'. apply N2. rewrite Et'. reflexivity. }
    exists (l :: p). split; [|split; [done|]].
    + eapply (chain_same_nodes h2); [rewrite Ll; symmetry; apply SP|exact Eq|by apply Cgs].
    + unfold text_at. f_equal. apply map_ext_in. intros x Hx%elem_of_list_In. rewrite <- (proj2 (proj2 (proj2 SP (Some x)))). unfold text_of, field. by rewrite Eq.
Qed.
(** Lines never go back from one scope to the next. *)
Theorem C62_lines_ordered : forall ord h startLine text h' scs i j sc sc', any_order ord -> SpecNode.wf h ->
  parse_scope ord h startLine text = Ok (h', scs) -> scs !! i = Some sc -> scs !! j = Some sc' -> i <= j ->
  (1 <= scope_line (Some sc))%Z /\ (scope_line (Some sc) <= scope_line (Some sc'))%Z /\ (scope_line (Some sc') <= count_nl text + 1)%Z.
Proof.
  intros ord h n text h' scs i j sc sc' O W E Ei Ej L.
  destruct (C62_scopes_in_source ord h n text h' scs O W E) as (pre & bodies & Et & Ln & H).
  destruct (lookup_lt_is_Some_2 bodies i) as [bi Bi]; [rewrite Ln; by eapply lookup_lt_Some|].
  destruct (lookup_lt_is_Some_2 bodies j) as [bj Bj]; [rewrite Ln; by eapply lookup_lt_Some|].
  destruct (H i sc bi Ei Bi) as (_ & Ni & Ci & _). destruct (H j sc' bj Ej Bj) as (_ & Nj & Cj & _).
  assert (Lj : j < length scs) by (by eapply lookup_lt_Some).
  assert (Q : forall k, k <= length scs -> (0 <= count_nl (pre ++ concat (take k bodies)) <= count_nl text)%Z).
  { intros k _. split; [apply count_nl_nonneg|]. rewrite Et, (concat_split bodies k), app_assoc, (count_nl_app (pre ++ _)). pose proof (count_nl_nonneg (concat (drop k bodies))). lia. }
  assert (M : (count_nl (pre ++ concat (take i bodies)) <= count_nl (pre ++ concat (take j bodies)))%Z).
  { rewrite !count_nl_app. rewrite (concat_split (take j bodies) i), take_take, Nat.min_l by lia. rewrite count_nl_app. pose proof (count_nl_nonneg (concat (drop i (take j bodies)))). lia. }
  pose proof (Q i ltac:(lia)) as Qi. pose proof (Q j ltac:(lia)) as Qj.
  destruct (cut_or (concat (drop i bodies))) as [Hi|Hi].
  - destruct (Ci Hi) as [-> Li]. assert (j = i) as -> by lia. rewrite Ei in Ej. injection Ej as <-. rewrite (proj1 (Ci Hi)). lia.
  - rewrite (Ni Hi). destruct (cut_or (concat (drop j bodies))) as [Hj|Hj]; [rewrite (proj1 (Cj Hj)); lia|rewrite (Nj Hj); lia].
Qed.
Example ex_C62 : match parse_scope src_ord [] 0 ($"x" ++ [c_nl] ++ $"var a = `" ++ [c_nl] ++ $"`" ++ [c_nl] ++ $"func f() {" ++ [c_nl] ++ $"}" ++ [c_nl] ++ $"/* open" ++ [c_nl]) with
  | Ok (_, scs) => map (fun sc => (scope_line (Some sc), sc_kind sc)) scs = [(2%Z, SVariable); (4%Z, SFunc); (7%Z, SInnerComment)]
  | _ => False end.
Proof. vm_compute. reflexivity. Qed.
