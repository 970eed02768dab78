(** C34-C38, C40: ParseScope (scope.go) and the refinement of kinds
    (kind_resetter_*.go).  Statements use the models [Scope.v], [Reset.v] and the
    vocabulary of [SpecNode.v], [SpecLex.v], [SpecScope.v]. *)
From Verif Require Import ResetSpec P_Lex.

(** ** Lemmas *)
Lemma pieces_heads h prev ls g gs l : pieces h prev ls g gs ->
  Some l ∈ map head gs <-> exists xs ys, ls = xs ++ l :: ys /\ starts h (match last xs with Some x => line_of h (Some x) | None => prev end) l.
Proof.
  induction 1 as [prev|prev a ls g gs Na P IH|prev a ls g gs Sa P IH]; cbn [map].
  - split; [by intros H%elem_of_nil|]. intros (xs & ys & E & _). by destruct xs.
  - rewrite IH. split.
    + intros (xs & ys & -> & St). exists (a :: xs), ys. split; [done|]. by destruct xs using rev_ind; rewrite ?app_comm_cons, ?last_snoc in *.
    + intros ([|x xs] & ys & E & St); injection E as -> ->; [done|]. exists xs, ys. split; [done|]. destruct xs using rev_ind; [done|]. by rewrite app_comm_cons, !last_snoc in *.
  - rewrite elem_of_cons, IH. cbn [head hd_error]. split.
    + intros [[= ->]|(xs & ys & -> & St)]; [by exists [], ls|]. exists (a :: xs), ys. split; [done|]. by destruct xs using rev_ind; rewrite ?app_comm_cons, ?last_snoc in *.
    + intros ([|x xs] & ys & E & St); injection E as -> ->; [by left|]. right. exists xs, ys. split; [done|]. destruct xs using rev_ind; [done|]. by rewrite app_comm_cons, !last_snoc in *.
Qed.
Lemma token_kind s t k r : token s t k r -> k = kind_new t \/ k = KString \/ k = KComment.
Proof. intros T. destruct T as [| |d ? ?| |]; auto. destruct d; auto. Qed.
Lemma scan_kinds n b st s ts : scan n b st s ts -> Forall (fun t => snd t = kind_new (snd (fst t)) \/ snd t = KString \/ snd t = KComment) ts.
Proof. induction 1 as [|n b st s t k r m b' st' ts T _ _ _ IH]; constructor; [|done]. by eapply token_kind. Qed.
Lemma reserved_text t k : (t, k) ∈ reserved -> t = k_text k.
Proof.
  intros H. assert (A : Forall (fun p : str * kind => fst p = k_text (snd p)) reserved) by (repeat constructor).
  rewrite Forall_forall in A. apply (A _ H).
Qed.
Lemma kind_new_fixed t k : kind_new t = k -> k ∈ map snd reserved -> t = k_text k.
Proof.
  intros E R. assert (B : k ∉ [KNone; KNumber; KSeparator; KString; KKeyword; KBasic; KSymbol; KRaw]).
  { assert (A : Forall (fun k => mem_kind k [KNone; KNumber; KSeparator; KString; KKeyword; KBasic; KSymbol; KRaw] = false) (map snd reserved)) by (repeat constructor).
    rewrite Forall_forall in A. apply mem_kind_false, A, R. }
  apply class_kind_new in E. destruct E as [|k H|H|H|H|H|H|H|H];
    try (destruct B; apply mem_kind_true; reflexivity). by apply reserved_text.
Qed.
Lemma token_fixed (h : heap) ls text l k : tokens text (map (pay h) ls) -> l ∈ ls -> kind_of h (Some l) = k -> k ∈ map snd reserved ->
  text_of h (Some l) = k_text k.
Proof.
  intros T Hl E R. apply scan_kinds in T. rewrite Forall_forall in T. specialize (T (pay h l)).
  destruct T as [T|[T|T]]; [apply elem_of_list_fmap; by exists l|..]; cbn [pay fst snd] in T.
  - by apply kind_new_fixed; [rewrite <- E|].
  - rewrite E in T. subst k. exfalso. clear -T R. rewrite T in R. apply mem_kind_true in R. vm_compute in R. discriminate R.
  - rewrite E in T. subst k. exfalso. clear -T R. rewrite T in R. apply mem_kind_true in R. vm_compute in R. discriminate R.
Qed.

(** A refined chain, seen from the heap before. *)
Lemma refined_facts h h' g : SpecNode.wf h' -> refined_from h h' g ->
  (exists cur, chain h' cur /\ head cur = head g /\ cur `sublist_of` g) /\
  (forall l, l ∈ g -> line_of h' (Some l) = line_of h (Some l) /\
     (kind_of h' (Some l) = kind_of h (Some l) \/ kind_of h' (Some l) ∈ refined)) /\
  (kind_of h (head g) <> KFunc -> kind_of h (head g) <> KType -> forall l, l ∈ g -> h' !! l = h !! l).
Proof.
  intros W' [(h1 & s & r & W1 & L1 & C1 & E1 & Er & B1 & Eg & Ll)].
  assert (Fl : forall (A : Type) (d : A) f l, l ∈ g -> field d f h1 (Some l) = field d f h (Some l)) by (intros; apply field_ext; by apply E1).
  assert (Fl' : forall (A : Type) (d : A) f l, l ∈ g -> field d f h' (Some l) = field d f (s_heap s) (Some l)) by (intros; apply field_ext; by apply Eg).
  split; [|split].
  - destruct (base_chain h1 g W1 C1 (s_heap s) B1) as (cur & C & Sub & Hd). exists cur. split; [|done].
    eapply chain_same_nodes; [exact Ll| |exact C]. intros l Hl. apply Eg. by eapply sublist_in.
  - intros l Hl. unfold line_of, kind_of. rewrite !Fl' by done. rewrite <- !Fl by done. split; [apply B1|apply B1].
  - intros N1 N2 l Hl. rewrite Eg by done. unfold reset_kind, bind, get_kind in Er. cbn [res_bind s_heap] in Er.
    assert (Ek : kind_of h1 (head g) = kind_of h (head g)).
    { destruct g as [|a g']; [done|]. unfold kind_of. cbn [head hd_error]. apply Fl. by left. }
    rewrite Ek, (proj2 (kind_eqb_false _ _) N1), (proj2 (kind_eqb_false _ _) N2) in Er. injection Er as <- _. cbn [s_heap]. by apply E1.
Qed.
Lemma scopes_forall2 {A B} (P : B -> A -> Prop) (f : A -> B) l : Forall (fun a => P (f a) a) l -> Forall2 P (map f l) l.
Proof. induction 1; constructor; done. Qed.

(** ** C37 *)
Theorem C37_parse_scope_terminates : forall ord h startLine text, any_order ord -> SpecNode.wf h ->
  exists h' scs, parse_scope ord h startLine text = Ok (h', scs) /\ SpecNode.wf h' /\
    forall l, valid h l -> h' !! l = h !! l.
Proof.
  intros ord h n text O W.
  destruct (parse_scope_spec ord (any_order_elem ord O) h n text W) as (h1 & h2 & h3 & ls & g & gs & E & W1 & P & C & Fr & T & HP & W2 & SP & Cg & Cgs & O2 & W3 & L3 & O3 & R3 & Er).
  exists h3, (map (scope_of h1) gs). split; [done|]. split; [done|]. intros l V.
  assert (Nl : l ∉ ls) by (intros Hl; apply Fr in Hl; unfold valid in V; lia).
  rewrite O3, O2; [|done|].
  - destruct P as [k ->]. by rewrite lookup_app_l.
  - intros Hl. apply Nl. rewrite (pieces_concat _ _ _ _ _ HP). apply elem_of_app. by right.
Qed.

(** What the scopes are, given the token chain [ls]. *)
Lemma parse_inv ord h n text h1 ls h' scs : any_order ord -> SpecNode.wf h -> tokenised ord h text h1 ls -> parse_scope ord h n text = Ok (h', scs) ->
  exists h2 g gs, pieces h1 (n - 1) ls g gs /\ scs = map (scope_of h1) gs /\ SpecNode.wf h1 /\ SpecNode.wf h' /\
    same_payload h1 h2 /\ length h' = length h1 /\ tokens text (map (pay h1) ls) /\ chain h2 g /\ Forall (chain h2) gs /\
    (forall l, l ∉ ls -> h2 !! l = h1 !! l) /\ (forall l, l ∉ concat gs -> h' !! l = h2 !! l) /\ Forall (refined_from h2 h') gs.
Proof.
  intros O W Tk E.
  destruct (parse_scope_spec ord (any_order_elem ord O) h n text W) as (h1' & h2 & h3 & ls' & g & gs & E' & W1 & P & C & Fr & T & HP & W2 & SP & Cg & Cgs & O2 & W3 & L3 & O3 & R3 & Er).
  destruct (tokenised_det _ _ _ _ _ _ _ Tk (conj E' C)) as [<- <-]. rewrite E in Er. injection Er as -> ->.
  exists h2, g, gs. split_and!; try done. rewrite L3. apply SP.
Qed.

(** ** C34 *)
Theorem C34_partition : forall ord h startLine text h1 ls h' scs, any_order ord -> SpecNode.wf h ->
  tokenised ord h text h1 ls -> parse_scope ord h startLine text = Ok (h', scs) ->
  exists g gs, ls = g ++ concat gs /\ NoDup ls /\
    Forall2 (fun sc gr => sc_node sc = head gr /\ gr <> [] /\ exists cur, chain h' cur /\ head cur = sc_node sc /\ cur `sublist_of` gr /\
      (sc_kind sc <> SFunc -> sc_kind sc <> SType -> cur = gr)) scs gs.
Proof.
  intros ord h n text h1 ls h' scs O W Tk E.
  destruct (parse_inv ord h n text h1 ls h' scs O W Tk E) as (h2 & g & gs & HP & -> & W1 & W' & SP & Ll & T & Cg & Cgs & O2 & O3 & R3).
  exists g, gs. pose proof (pieces_concat _ _ _ _ _ HP) as El. split; [done|]. split; [eapply chain_NoDup, Tk|]. apply scopes_forall2.
  pose proof (pieces_nonempty _ _ _ _ _ HP) as NE. rewrite Forall_forall in *. intros gr Hg. specialize (NE gr Hg). specialize (R3 gr Hg).
  destruct (refined_facts h2 h' gr W' R3) as ((cur & C & Hd & Sub) & _ & Un).
  destruct gr as [|l gr]; [done|]. cbn [scope_of sc_node head hd_error sc_kind]. split; [done|]. split; [done|].
  exists cur. split; [done|]. split; [done|]. split; [done|]. intros N1 N2.
  assert (Hl : l ∈ ls). { rewrite El. apply elem_of_app. right. apply elem_of_list_In, in_concat. exists (l :: gr). split; [by apply elem_of_list_In|by left]. }
  assert (Cg' : chain h' (l :: gr)).
  { eapply (chain_same_nodes h2); [rewrite Ll; symmetry; apply SP| |by apply Cgs]. apply Un.
    - intros K. change (head (l :: gr)) with (Some l) in K. rewrite (proj1 (proj2 (proj2 SP (Some l)))) in K.
      pose proof (token_fixed h1 ls text l KFunc T Hl K ltac:(apply mem_kind_true; reflexivity)) as Et. apply N1. rewrite Et. reflexivity.
    - intros K. change (head (l :: gr)) with (Some l) in K. rewrite (proj1 (proj2 (proj2 SP (Some l)))) in K.
      pose proof (token_fixed h1 ls text l KType T Hl K ltac:(apply mem_kind_true; reflexivity)) as Et. apply N2. rewrite Et. reflexivity. }
  destruct cur as [|c cur]; [done|]. injection Hd as ->. by apply (chain_unique h' _ _ l C Cg'); left.
Qed.

(** ** C35 *)
Theorem C35_scope_starts : forall ord h startLine text h1 ls h' scs, any_order ord -> SpecNode.wf h ->
  tokenised ord h text h1 ls -> parse_scope ord h startLine text = Ok (h', scs) ->
  (forall sc, sc ∈ scs -> exists l xs ys, sc_node sc = Some l /\ ls = xs ++ l :: ys /\ starts h1 (line_before h1 startLine xs) l /\
     begins (sc_kind sc) (text_of h1 (Some l)) /\ scope_kind_of (Some sc) = sc_kind sc /\ scope_line (Some sc) = (line_of h1 (Some l) + 1)%Z) /\
  (forall l xs ys, ls = xs ++ l :: ys -> starts h1 (line_before h1 startLine xs) l -> exists sc, sc ∈ scs /\ sc_node sc = Some l).
Proof.
  intros ord h n text h1 ls h' scs O W Tk E.
  destruct (parse_inv ord h n text h1 ls h' scs O W Tk E) as (h2 & g & gs & HP & -> & W1 & W' & SP & Ll & T & Cg & Cgs & O2 & O3 & R3).
  pose proof (pieces_nonempty _ _ _ _ _ HP) as NE. rewrite Forall_forall in NE. split.
  - intros sc Hsc. apply elem_of_list_fmap in Hsc as (gr & -> & Hg). specialize (NE gr Hg). destruct gr as [|l gr]; [done|].
    destruct (proj1 (pieces_heads h1 _ ls g gs l HP)) as (xs & ys & -> & St); [apply elem_of_list_fmap; by exists (l :: gr)|].
    exists l, xs, ys. split; [done|]. split; [done|]. split; [done|]. cbn [scope_of sc_kind]. split; [|done].
    destruct St as [_ [k B]]. destruct (new_scope_kind_begins (text_of h1 (Some l))) as [[_ N]|[_ B']]; [by destruct (N k)|done].
  - intros l xs ys -> St.
    assert (Hin : Some l ∈ map head gs) by (apply (proj2 (pieces_heads h1 _ _ g gs l HP)); by exists xs, ys).
    apply elem_of_list_fmap in Hin as (gr & Hd & Hg). exists (scope_of h1 gr). split; [apply elem_of_list_fmap; by exists gr|].
    destruct gr; [done|]. by injection Hd as ->.
Qed.
(** No scope keyword begins another, so a scope's kind is determined. *)
Theorem C35_kind_determined : forall t k k', begins k t -> begins k' t -> k = k'.
Proof.
  intros t k k' [H1 P1] [H2 P2].
  assert (A : Forall (fun k1 => Forall (fun k2 => bool_decide (k1 = k2) || negb (bool_decide (k1 `prefix_of` k2))) scope_keywords) scope_keywords) by (repeat constructor).
  assert (A' : forall k1 k2, k1 ∈ scope_keywords -> k2 ∈ scope_keywords -> k1 `prefix_of` k2 -> k1 = k2).
  { intros k1 k2 I1 I2 P. rewrite Forall_forall in A. specialize (A k1 I1). rewrite Forall_forall in A. specialize (A k2 I2).
    apply Is_true_eq_true, orb_true_iff in A as [A|A]; [by apply bool_decide_eq_true in A|]. apply negb_true_iff, bool_decide_eq_false in A. done. }
  destruct (prefix_weak_total k k' t P1 P2) as [P|P]; [by apply A'|symmetry; by apply A'].
Qed.
Example ex_C35 : match parse_scope src_ord [] 0 ($"package a" ++ [c_nl] ++ $"var x int" ++ [c_nl] ++ $"y") with
  | Ok (_, scs) => map (fun sc => (scope_line (Some sc), sc_kind sc)) scs = [(1%Z, SPackage); (2%Z, SVariable)]
  | _ => False end.
Proof. vm_compute. reflexivity. Qed.
(** The keyword is only required to be a prefix: a label starts a scope in the
    middle of a function, and a package clause after a comment is not found. *)
Theorem C35_keyword_refuted :
  match parse_scope src_ord [] 0 ($"func f() {" ++ [c_nl] ++ $"typeLoop:" ++ [c_nl] ++ $"}") with
  | Ok (_, scs) => map sc_kind scs = [SFunc; SType] | _ => False end /\
  match parse_scope src_ord [] 0 ($"/* x */ package a" ++ [c_nl]) with
  | Ok (_, scs) => map sc_kind scs = [SInnerComment] | _ => False end.
Proof. vm_compute. split; reflexivity. Qed.

(** ** C36 *)
(** The line of the first token. *)
Lemma first_token_line s t k r m : token s t k r -> line_rule 0 0 t m ->
  m = 0%Z \/ (exists d, cut_off d s) /\ m = count_nl s.
Proof.
  intros Tk (R1 & R2 & R3).
  destruct (decide (t = $"(")) as [E|N1]; [left; apply R2; by left|].
  destruct (decide (t = $"{")) as [E|N2]; [left; apply R2; by right|].
  destruct Tk as [c r0 Hc|w r0 Nw Hw Hr|d t0 r0 Nd Sh|t0 r0 Sh|d t0 Cut].
  - left. apply R3; [|done..]. intros [d [Hd _]]. apply (sep_no_open c [] Hc). by exists d.
  - left. apply R3; [|done..]. intros [d [Hd _]]. apply (word_no_open w r0 Nw Hw). exists d. by apply prefix_app_r.
  - left. apply R3; [|done..]. intros [d' Hd]. destruct Sh as (_ & Cl & _). pose proof (closed_opener _ _ Cl) as Op.
    assert (d' = d) as -> by (eapply opener_inj; [apply Hd|exact Op]). by apply (proj2 Hd t0).
  - left. rewrite R1; [|exists DLine; split].
    + rewrite Z.add_0_l. apply count_nl_none. intros Hin. apply elem_of_list_split in Hin as (x1 & x2 & ->).
      destruct Sh as (_ & (b0 & Eb) & Sh).
      assert (Hx : exists b1, x1 = $"//" ++ b1).
      { clear -Eb. destruct x1 as [|? [|? x1]]; cbn in Eb; try discriminate Eb. injection Eb as -> -> _. by exists x1. }
      destruct Hx as [b1 ->].
      specialize (Sh (($"//" ++ b1) ++ [c_nl])). rewrite !app_length in Sh. cbn [length] in Sh.
      assert (length $"//" + length b1 + S (length x2) + 1 <= length $"//" + length b1 + 1); [|lia].
      apply Sh; [|exists b1; by rewrite <- app_assoc]. exists (x2 ++ c_nl :: r0). by rewrite <- !app_assoc.
    + destruct Sh as (_ & (b0 & Eb) & _). rewrite app_assoc in Eb. apply app_inj_tail in Eb as [-> _]. by apply prefix_app_r.
    + intros u [v Hu] (b0 & Eb). destruct Sh as (_ & _ & Sh). specialize (Sh u). rewrite !app_length in Sh. cbn [length] in Sh.
      assert (length t0 + 1 <= length u); [|rewrite Hu, app_length in *; lia].
      apply Sh; [|by exists b0]. rewrite Hu. exists (v ++ c_nl :: r0). by rewrite <- app_assoc.
  - right. split; [by exists d|]. rewrite R1; [lia|by exists d].
Qed.
Lemma first_line ord h text h1 l ls : any_order ord -> SpecNode.wf h -> tokenised ord h text h1 (l :: ls) ->
  line_of h1 (Some l) = 0%Z \/ (exists d, cut_off d text) /\ line_of h1 (Some l) = count_nl text.
Proof.
  intros O W T. apply tokenised_tokens in T; [|done..]. cbn [map] in T. unfold tokens in T. unfold pay at 1 in T.
  revert T. generalize (line_of h1 (Some l)) as m. generalize (text_of h1 (Some l)) as t. generalize (kind_of h1 (Some l)) as k.
  intros k t m T. remember ((m, t, k) :: map (pay h1) ls) as ts eqn:Ets. remember (0%Z) as z eqn:Ez in T at 1. remember (0%Z) as z' eqn:Ez' in T.
  destruct T as [|n b st s t' k' r m' b' st' ts Tk R _ _]; [done|]. injection Ets as -> -> -> _. subst n b.
  by eapply first_token_line.
Qed.
Lemma split_any_line h1 l n n' : line_of h1 (Some l) <> (n - 1)%Z -> line_of h1 (Some l) <> (n' - 1)%Z ->
  split_scopes h1 (Some l) n = split_scopes h1 (Some l) n'.
Proof.
  intros N N'. unfold split_scopes, iter_next. cbn [loop].
  assert (E : split_step l (mkP h1 [] [] (Some l) SUnknown (n - 1)) = split_step l (mkP h1 [] [] (Some l) SUnknown (n' - 1))).
  { unfold split_step. cbn [p_heap p_line p_scs p_reset p_head p_k]. by rewrite (proj2 (Z.eqb_neq _ _) N), (proj2 (Z.eqb_neq _ _) N'). }
  by rewrite E.
Qed.
Lemma parse_any_line ord h text h1 ls n n' : tokenised ord h text h1 ls ->
  (forall l, head ls = Some l -> line_of h1 (Some l) <> (n - 1)%Z /\ line_of h1 (Some l) <> (n' - 1)%Z) ->
  parse_scope ord h n text = parse_scope ord h n' text.
Proof.
  intros [E C] H. unfold parse_scope. rewrite E. cbn [res_bind]. f_equal. destruct ls as [|l ls].
  - reflexivity.
  - destruct (H l eq_refl). by apply split_any_line.
Qed.
(** The start line makes no difference, unless it is 1 or, for a text that is a
    single unterminated string or comment, the number of its last line. *)
Theorem C36_start_line : forall ord h startLine startLine' text, any_order ord -> SpecNode.wf h ->
  startLine <> 1%Z -> startLine' <> 1%Z ->
  ((exists d, cut_off d text) -> startLine <> (count_nl text + 1)%Z /\ startLine' <> (count_nl text + 1)%Z) ->
  parse_scope ord h startLine text = parse_scope ord h startLine' text.
Proof.
  intros ord h n n' text O W N N' Cut.
  destruct (C29_tokeniser_terminates ord h text O W) as (h1 & ls & T & _).
  eapply parse_any_line; [exact T|]. intros l Hl. destruct ls as [|l' ls]; [done|]. injection Hl as ->.
  destruct (first_line ord h text h1 l ls O W T) as [->|[Hc ->]]; [lia|]. specialize (Cut Hc). lia.
Qed.
(** With start line 1 exactly the scope that starts the text, if any, is missed. *)
Theorem C36_first_missed : forall ord h startLine text h1 l ls ha scs hb scs', any_order ord -> SpecNode.wf h ->
  tokenised ord h text h1 (l :: ls) -> (forall d, ~ cut_off d text) -> startLine <> 1%Z ->
  parse_scope ord h startLine text = Ok (ha, scs) -> parse_scope ord h 1 text = Ok (hb, scs') ->
  ((exists k, begins k (text_of h1 (Some l))) -> exists sc, scs = sc :: scs' /\ sc_node sc = Some l) /\
  ((forall k, ~ begins k (text_of h1 (Some l))) -> scs = scs').
Proof.
  intros ord h n text h1 l ls ha scs hb scs' O W T NC Nn Ea Eb.
  assert (L : line_of h1 (Some l) = 0%Z) by (destruct (first_line ord h text h1 l ls O W T) as [H|[[d Hd] _]]; [done|by destruct (NC d)]).
  destruct (parse_inv ord h n text h1 (l :: ls) ha scs O W T Ea) as (h2 & g & gs & HP & -> & _).
  destruct (parse_inv ord h 1 text h1 (l :: ls) hb scs' O W T Eb) as (h2' & g' & gs' & HP' & -> & _).
  assert (Ns : ~ starts h1 (1 - 1) l) by (intros [H _]; lia).
  assert (U : forall prev xs a as_ b bs, pieces h1 prev xs a as_ -> pieces h1 prev xs b bs -> a = b /\ as_ = bs).
  { clear. intros prev xs a as_ b bs H. revert b bs. induction H as [prev|prev x xs a as_ N H IH|prev x xs a as_ N H IH]; intros b bs H'; inversion H'; subst; try done.
    - destruct (IH _ _ ltac:(eassumption)) as [-> ->]. done.
    - destruct (IH _ _ ltac:(eassumption)) as [-> ->]. done. }
  inversion HP' as [|? ? ? g1 gs1 _ P1|? ? ? g1 gs1 Hs P1]; subst; [|by destruct Ns].
  inversion HP as [|? ? ? g2 gs2 N2 P2|? ? ? g2 gs2 Hs P2]; subst; destruct (U _ _ _ _ _ _ P1 P2) as [-> ->].
  - split; [|done]. intros B. destruct N2. split; [lia|done].
  - split; [intros _; by exists (scope_of h1 (l :: g2))|]. intros N. destruct Hs as [_ [k B]]. by destruct (N k).
Qed.
(** The natural claim that the start line never matters fails. *)
Theorem C36_start_line_refuted :
  let scs n := match parse_scope src_ord [] n ($"package a" ++ [c_nl] ++ $"var x int") with Ok (_, scs) => map sc_kind scs | _ => [] end in
  scs 0%Z = [SPackage; SVariable] /\ scs 7%Z = [SPackage; SVariable] /\ scs 1%Z = [SVariable].
Proof. vm_compute. repeat split. Qed.

(** ** C38 *)
(** On any chain whatsoever, whatever its kinds and texts. *)
Theorem C38_refinement_well_formed : forall h ls, SpecNode.wf h -> chain h ls ->
  exists s r, reset_kind (reset_fuel h) (head ls) (mkSt h []) = Ok (s, r) /\
    let h' := s_heap s in
    SpecNode.wf h' /\ length h' = length h /\
    (exists ls', chain h' ls' /\ head ls' = head ls /\ ls' `sublist_of` ls) /\
    (forall l, line_of h' (Some l) = line_of h (Some l)) /\
    (forall l, kind_of h' (Some l) = kind_of h (Some l) \/ kind_of h' (Some l) ∈ refined) /\
    (forall l, l ∉ ls -> h' !! l = h !! l).
Proof.
  intros h ls W C. destruct (reset_base h ls [] W C) as (s & r & E & B). exists s, r. split; [done|]. cbv zeta.
  split; [apply B|]. split; [apply B|]. split.
  { destruct (base_chain h ls W C (s_heap s) B) as (cur & C' & Sub & Hd). by exists cur. }
  split; [intros l; apply B|]. split; [intros l; apply B|]. intros l. apply B.
Qed.
(** The same for ParseScope: [ls] are the tokens. *)
Theorem C38_parse_scope_refines : forall ord h startLine text h1 ls h' scs, any_order ord -> SpecNode.wf h ->
  tokenised ord h text h1 ls -> parse_scope ord h startLine text = Ok (h', scs) ->
  SpecNode.wf h' /\ length h' = length h1 /\
  (forall l, l ∈ ls -> line_of h' (Some l) = line_of h1 (Some l)) /\
  (forall l, l ∈ ls -> kind_of h' (Some l) = kind_of h1 (Some l) \/ kind_of h' (Some l) ∈ refined) /\
  (forall l, l ∉ ls -> h' !! l = h1 !! l).
Proof.
  intros ord h n text h1 ls h' scs O W Tk E.
  destruct (parse_inv ord h n text h1 ls h' scs O W Tk E) as (h2 & g & gs & HP & -> & W1 & W' & SP & Ll & T & Cg & Cgs & O2 & O3 & R3).
  pose proof (pieces_concat _ _ _ _ _ HP) as El.
  assert (F : forall l, l ∈ ls -> line_of h' (Some l) = line_of h1 (Some l) /\ (kind_of h' (Some l) = kind_of h1 (Some l) \/ kind_of h' (Some l) ∈ refined)).
  { intros l Hl. destruct (decide (l ∈ concat gs)) as [Hin|Hn].
    - apply elem_of_list_In, in_concat in Hin as (gr & Hg & Hin). rewrite Forall_forall in R3.
      destruct (refined_facts h2 h' gr W' (R3 gr (proj2 (elem_of_list_In _ _) Hg))) as (_ & F & _).
      destruct (F l (proj2 (elem_of_list_In _ _) Hin)) as [F1 F2]. destruct (proj2 SP (Some l)) as (S1 & S2 & S3). rewrite <- S1, <- S2. done.
    - destruct (proj2 SP (Some l)) as (S1 & S2 & S3). rewrite <- S1, <- S2.
      assert (Eq : forall (A : Type) (d : A) f, field d f h' (Some l) = field d f h2 (Some l)) by (intros; apply field_ext; by apply O3).
      split; [apply Eq|left; apply Eq]. }
  split; [done|]. split; [done|]. split; [apply F|]. split; [apply F|].
  intros l Hl. rewrite O3, O2; [done..|]. intros Hin. apply Hl. rewrite El. apply elem_of_app. by right.
Qed.
(** What a user sees of a scope: the texts and kinds along its chain. *)
Definition view (r : res (heap * list scope)) : list (list (str * kind)) :=
  match r with
  | Ok (h, scs) => map (fun sc => match scan_next h (sc_node sc) (fun l acc => (acc ++ [(text_of h (Some l), kind_of h (Some l))], true)) [] with
                                  | Ok (acc, _) => acc | _ => [] end) scs
  | _ => []
  end.
Example ex_C38 : view (parse_scope src_ord [] 0 ($"func (r *T) F(a, b []int) error {" ++ [c_nl] ++ $"}")) =
  [[($"func", KFunc); ($" ", KSpace); ($"(", KParenL); ($"r", KMethodReceiverName); ($" ", KSpace); ($"*T", KMethodReceiverType);
    ($")", KParenR); ($" ", KSpace); ($"F", KFuncName); ($"(", KParenL); ($"a", KParamType); ($",", KComma); ($" ", KSpace);
    ($"b", KParamName); ($" ", KSpace); ($"[", KSquareL); ($"]", KSquareR); ($"int", KBasic); ($")", KParenR); ($" ", KSpace); ($"error", KParamType); ($" ", KSpace);
    ($"{", KCurlyL); ([c_nl], KNewLine); ($"}", KCurlyR)]].
Proof. vm_compute. reflexivity. Qed.

(** ** C40 *)
Theorem C40_others_unrefined : forall ord h startLine text h1 ls h' scs sc, any_order ord -> SpecNode.wf h ->
  tokenised ord h text h1 ls -> parse_scope ord h startLine text = Ok (h', scs) -> sc ∈ scs ->
  text_of h1 (sc_node sc) <> $"func" -> text_of h1 (sc_node sc) <> $"type" ->
  exists xs gr ys, ls = xs ++ gr ++ ys /\ head gr = sc_node sc /\ chain h' gr /\
    forall l, l ∈ gr -> pay h' l = pay h1 l.
Proof.
  intros ord h n text h1 ls h' scs sc O W Tk E Hsc N1 N2.
  destruct (parse_inv ord h n text h1 ls h' scs O W Tk E) as (h2 & g & gs & HP & -> & W1 & W' & SP & Ll & T & Cg & Cgs & O2 & O3 & R3).
  pose proof (pieces_concat _ _ _ _ _ HP) as El. pose proof (pieces_nonempty _ _ _ _ _ HP) as NE.
  apply elem_of_list_fmap in Hsc as (gr & -> & Hg). rewrite Forall_forall in *. specialize (NE gr Hg). specialize (R3 gr Hg).
  destruct (refined_facts h2 h' gr W' R3) as (_ & _ & Un). cbn [scope_of sc_node] in N1, N2 |- *.
  destruct (elem_of_list_split _ _ Hg) as (gs1 & gs2 & Eg). exists (g ++ concat gs1), gr, (concat gs2).
  split; [rewrite El, Eg, concat_app; cbn [concat]; by rewrite <- ?app_assoc|]. split; [by destruct gr|].
  destruct gr as [|l gr]; [done|]. change (head (l :: gr)) with (Some l) in *. cbn [scope_of sc_node] in N1, N2.
  assert (Hl : l ∈ ls). { rewrite El. apply elem_of_app. right. apply elem_of_list_In, in_concat. exists (l :: gr). split; [by apply elem_of_list_In|by left]. }
  assert (Un' : forall x, x ∈ l :: gr -> h' !! x = h2 !! x).
  { apply Un; change (head (l :: gr)) with (Some l); intros K; rewrite (proj1 (proj2 (proj2 SP (Some l)))) in K.
    - by apply N1, (token_fixed h1 ls text l KFunc T Hl K ltac:(apply mem_kind_true; reflexivity)).
    - by apply N2, (token_fixed h1 ls text l KType T Hl K ltac:(apply mem_kind_true; reflexivity)). }
  split.
  - eapply (chain_same_nodes h2); [rewrite Ll; symmetry; apply SP|exact Un'|by apply Cgs].
  - intros x Hx. destruct (proj2 SP (Some x)) as (S1 & S2 & S3). unfold pay. rewrite <- S1, <- S2, <- S3.
    assert (Eq : forall (A : Type) (d : A) f, field d f h' (Some x) = field d f h2 (Some x)) by (intros; apply field_ext; by apply Un').
    f_equal; [f_equal|]; apply Eq.
Qed.
Theorem C40_scope_kinds : forall ord h startLine text h1 ls h' scs sc, any_order ord -> SpecNode.wf h ->
  tokenised ord h text h1 ls -> parse_scope ord h startLine text = Ok (h', scs) -> sc ∈ scs ->
  sc_kind sc <> SFunc -> sc_kind sc <> SType ->
  exists xs gr ys, ls = xs ++ gr ++ ys /\ head gr = sc_node sc /\ chain h' gr /\
    forall l, l ∈ gr -> pay h' l = pay h1 l.
Proof.
  intros ord h n text h1 ls h' scs sc O W Tk E Hsc N1 N2.
  apply (C40_others_unrefined ord h n text h1 ls h' scs sc); try done.
  - intros Et. destruct (proj1 (C35_scope_starts ord h n text h1 ls h' scs O W Tk E) sc Hsc) as (l & xs & ys & En & _ & _ & B & _).
    rewrite En in Et. rewrite Et in B. apply N1. eapply C35_kind_determined; [exact B|]. split; [|done]. apply elem_of_list_In. vm_compute. tauto.
  - intros Et. destruct (proj1 (C35_scope_starts ord h n text h1 ls h' scs O W Tk E) sc Hsc) as (l & xs & ys & En & _ & _ & B & _).
    rewrite En in Et. rewrite Et in B. apply N2. eapply C35_kind_determined; [exact B|]. split; [|done]. apply elem_of_list_In. vm_compute. tauto.
Qed.
Example ex_C40 : match parse_scope src_ord [] 0 ($"import " ++ [c_dq] ++ $"x" ++ [c_dq] ++ [c_nl] ++ $"var a []func(b int)") with
  | Ok (_, scs) => map sc_kind scs = [SImport; SVariable] | _ => False end.
Proof. vm_compute. reflexivity. Qed.
