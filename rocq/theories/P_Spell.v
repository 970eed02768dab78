(** C74: exactly which lists of tokens can be written down and read back. *)
From Verif Require Import SpecSpell Opaque LexSpecProofs P_Lex.

Lemma written_cons t k ts : spelling ((t, k) :: ts) = t ++ spelling ts. Proof. done. Qed.
Lemma spelled_head_open ts u k ts' d : ts = (u, k) :: ts' -> opener d `prefix_of` u -> opens (spelling ts).
Proof. intros -> [q ->]. exists d. unfold spelling. cbn [map concat fst]. rewrite <- app_assoc. by apply prefix_app_r. Qed.
Lemma go_word_no_open w1 c w2 r : go_word (w1 ++ c :: w2) ->
  (w2 = [] -> c = "/"%char -> forall x, head r = Some x -> x <> "/"%char /\ x <> "*"%char) -> ~ opens (c :: w2 ++ r).
Proof.
  intros (_ & G & A1 & A2) Hr [d O]. destruct (G c ltac:(apply elem_of_app; right; left)) as (_ & N1 & N2).
  assert (Two : forall x, (exists q, c :: w2 ++ r = "/"%char :: x :: q) -> x = "/"%char \/ x = "*"%char -> False).
  { intros x [q E] Hx. injection E as -> E. destruct w2 as [|y w2].
    - cbn in E. subst r. destruct (Hr eq_refl eq_refl x eq_refl) as [X1 X2]. by destruct Hx.
    - injection E as -> _. destruct Hx as [-> | ->]; [by apply (A1 w1 w2)|by apply (A2 w1 w2)]. }
  destruct O as [q E]. destruct d; cbn [opener app] in E.
  - by injection E as -> _.
  - by injection E as -> _.
  - apply (Two "*"%char); [by exists q|tauto].
  - apply (Two "/"%char); [by exists q|tauto].
Qed.
Lemma spelled_token' l : spelled l -> match l with [] => True | (t, k) :: ts => token (t ++ spelling ts) t k (spelling ts) /\ spelled ts /\ ~ (exists d, cut_off d t /\ (d = DLine -> ts = [])) end.
Proof.
  intros Sp. destruct Sp as [|c ts0 Hc Sp|w ts0 Gw Aw Sp|d u ts0 Nd W Sp|b k0 ts0 Nb Sp]; [done|..].
  - split; [by apply tk_separator|]. split; [done|]. intros (d & [O _] & _). apply (sep_no_open c [] Hc). by exists d.
  - assert (Hd : forall x, last w = Some "/"%char -> head (spelling ts0) = Some x -> x <> "/"%char /\ x <> "*"%char).
    { intros x L Hx. destruct ts0 as [|[u k0] ts0]; [done|]. cbn [after_word] in Aw. unfold spelling in Hx. cbn [map concat fst] in Hx.
      destruct Aw as [(c & Hc & ->)|(d & O & N)].
      - cbn in Hx. injection Hx as <-. split; intros ->; revert Hc; eapply bool_decide_unpack; vm_compute; exact Logic.I.
      - specialize (N L). destruct O as [q ->]. destruct d; cbn in Hx, N; injection Hx as <-; done. }
    assert (No : forall w1 c w2, w = w1 ++ c :: w2 -> c ∉ separators /\ ~ opens (c :: w2 ++ spelling ts0)).
    { intros w1 c w2 ->. split; [apply Gw, elem_of_app; right; left|]. eapply go_word_no_open; [exact Gw|]. intros -> -> x Hx. apply Hd; [by rewrite last_snoc|done]. }
    split; [apply tk_word; [apply Gw|exact No|]|split; [done|]].
    + destruct ts0 as [|[u k0] ts0]; [by left|right]. cbn [after_word] in Aw. destruct Aw as [(c & Hc & ->)|(d & O & _)]; [right; by exists c|left; by eapply spelled_head_open].
    + intros (d & [O _] & _). destruct w as [|c w]; [by destruct Gw|]. destruct (No [] c w eq_refl) as [_ N]. apply N. exists d. destruct O as [q O]. exists (q ++ spelling ts0). rewrite app_assoc, <- O. done.
  - split; [apply tk_delim; [done|]; by apply whole_shortest|]. split; [done|]. intros (e & [O N] & _). destruct W as [C _].
    rewrite (opener_inj e d u O (closed_opener _ _ C)) in N. by apply (N u).
  - split; [rewrite written_cons; apply (tk_line ($"//" ++ b) (spelling ts0)); by apply line_whole|]. split; [done|]. intros (d & [O _] & E). apply opener_inj with (d' := DLine) in O; [|by exists b]. by specialize (E O).
Qed.
Lemma spelled_token t k ts : spelled ((t, k) :: ts) -> token (t ++ spelling ts) t k (spelling ts).
Proof. intros Sp. by apply spelled_token' in Sp as [? _]. Qed.
Lemma spelled_tail t k ts : spelled ((t, k) :: ts) -> spelled ts.
Proof. intros Sp. by apply spelled_token' in Sp as (_ & ? & _). Qed.
Lemma scan_spelled toks : spelled toks -> forall n b st ts, scan n b st (spelling toks) ts -> map text_kind ts = toks.
Proof.
  induction toks as [|[t k] toks IH]; intros Sp n b st ts Sc.
  - remember (spelling []) as s eqn:E. destruct Sc as [|? ? ? s t k r m b' st' ts T L B Sc]; [done|]. exfalso. rewrite (token_text _ _ _ _ T) in E. apply token_nonempty in T. by apply app_nil in E as [? _].
  - pose proof (spelled_token t k toks Sp) as T. rewrite written_cons in Sc. remember (t ++ spelling toks) as s eqn:E.
    destruct Sc as [|? ? ? s t' k' r m b' st' ts T' L B Sc]; [exfalso; apply token_nonempty in T; symmetry in E; by apply app_nil in E as [? _]|]. subst s.
    destruct (token_unique _ _ _ _ _ _ _ T T') as (<- & <- & <-). cbn [map text_kind fst snd]. f_equal. eapply IH; [by eapply spelled_tail|exact Sc].
Qed.

(** ** C74 *)
Theorem C74_read_back : forall toks, spelled toks -> exists ts, tokens (spelling toks) ts /\ map text_kind ts = toks.
Proof. intros toks Sp. destruct (C30_tokens_total (spelling toks)) as [ts T]. exists ts. split; [done|]. by eapply scan_spelled. Qed.
(** The nodes the tokeniser makes of them. *)
Theorem C74_nodes : forall ord h toks, any_order ord -> SpecNode.wf h -> spelled toks ->
  exists h' ls, tokenised ord h (spelling toks) h' ls /\ map (fun l => (text_of h' (Some l), kind_of h' (Some l))) ls = toks.
Proof.
  intros ord h toks O W Sp. destruct (C29_tokeniser_terminates ord h (spelling toks) O W) as (h' & ls & T & _). exists h', ls. split; [done|].
  pose proof (C30_tokeniser_scans _ _ _ _ _ O W T) as Sc. pose proof (scan_spelled toks Sp _ _ _ _ Sc) as E. rewrite map_map in E. exact E.
Qed.
Lemma absent_word p w r : (forall w1 c w2, w = w1 ++ c :: w2 -> c ∉ separators /\ ~ opens (c :: w2 ++ r)) -> (exists d, opener d = p) -> absent p w.
Proof.
  intros H [d <-] b1 b2 E. assert (exists c q, opener d = c :: q) as (c & q & Ed) by (destruct d; by eexists _, _). rewrite Ed in E. cbn [app] in E. destruct (H _ _ _ E) as [_ N]. apply N. exists d. rewrite Ed. exists (b2 ++ r). cbn. by rewrite app_assoc.
Qed.
Lemma scan_is_spelled n b st s ts : scan n b st s ts -> ends_closed (map text_kind ts) -> spelled (map text_kind ts).
Proof.
  induction 1 as [n b st|n b st s t k r m b' st' ts T L B Sc IH]; intros Ac; [constructor|].
  assert (Sp : spelled (map text_kind ts)) by (apply IH; intros x Hx; apply Ac; cbn [map]; destruct (map text_kind ts); [done|exact Hx]). clear IH. cbn [map text_kind fst snd].
  assert (Nx : forall c r', r = c :: r' -> c ∈ separators -> exists k0 tl, map text_kind ts = ([c], k0) :: tl).
  { intros c r' E Hc. destruct Sc as [|? ? ? s0 t0 k0 r0 m0 b0 st0 ts0 T0 _ _ _]; [done|]. subst s0. destruct (token_unique _ _ _ _ _ _ _ T0 (tk_separator c r' Hc)) as (-> & -> & ->). by eexists _, _. }
  destruct T as [c r Hc|w r Nw Hw Hr|d t r Nd Sh|t r Sh|d t C].
  - by apply sp_sep.
  - apply sp_word; [| |done].
    + split; [done|]. split; [|split; eapply absent_word; [exact Hw|by exists DLine|exact Hw|by exists DBlock]].
      intros c Hc. apply elem_of_list_split in Hc as (w1 & w2 & E). destruct (Hw _ _ _ E) as [Sc1 N]. split; [done|].
      split; intros ->; apply N; [exists DString|exists DRaw]; by eexists.
    + destruct Sc as [|? ? ? s0 t0 k0 r0 m0 b0 st0 ts0 T0 _ _ _]; [done|]. cbn [map text_kind after_word fst snd].
      destruct (token_word_ends _ _ _ _ T0 Hr) as [(c & Hc & ->)|[d O]]; [left; by exists c|right]. exists d. split; [done|].
      intros Lw Hd. pose proof (token_text _ _ _ _ T0) as E. apply last_Some in Lw as [w1 ->]. destruct (Hw w1 "/"%char [] eq_refl) as [_ N]. apply N. exists DLine. destruct t0 as [|x t0]; [done|]. injection Hd as ->. rewrite E. by eexists.
  - apply sp_delim; [done| |done]. by eapply shortest_whole.
  - destruct (Nx c_nl r eq_refl) as (k0 & tl & E); [eapply bool_decide_unpack; vm_compute; exact Logic.I|]. rewrite E in Sp |- *.
    pose proof (shortest_line_no_nl _ _ Sh) as Nn. destruct Sh as (_ & Cl & _). apply line_closed in Cl as [b0 ->]; [|done].
    apply sp_line; [|done]. intros H. apply Nn. apply elem_of_app. by right.
  - exfalso. assert (ts = []) as ->. { remember [] as r eqn:E in Sc. destruct Sc as [|? ? ? s0 t0 k0 r0 m0 b0 st0 ts0 T0 _ _ _]; [done|]. exfalso. subst s0. pose proof (token_text _ _ _ _ T0) as E. symmetry in E. apply app_nil in E as [E _]. by apply token_nonempty in T0. }
    refine (Ac (t, kind_new t) _ _); [done|by exists d].
Qed.
Lemma spelled_ends_closed toks : spelled toks -> ends_closed toks.
Proof.
  induction toks as [|[t k] toks IH]; intros Sp x L; [done|]. destruct toks as [|y toks].
  - injection L as <-. apply spelled_token' in Sp as (_ & _ & N). intros [d C]. apply N. exists d. by split.
  - apply IH; [by eapply spelled_tail|exact L].
Qed.
Theorem C74_iff : forall toks,
  spelled toks <-> (exists ts, tokens (spelling toks) ts /\ map text_kind ts = toks) /\ ends_closed toks.
Proof.
  intros toks. split.
  - intros Sp. split; [by apply C74_read_back|by apply spelled_ends_closed].
  - intros [(ts & T & <-) C]. by eapply scan_is_spelled.
Qed.
(** What can be written is written in one way only. *)
Theorem C74_unambiguous : forall toks toks', spelled toks -> spelled toks' -> spelling toks = spelling toks' -> toks = toks'.
Proof.
  intros toks toks' Sp Sp' E. destruct (C74_read_back toks Sp) as (ts & T & <-). rewrite E in T. by eapply scan_spelled.
Qed.
(** Every text that does not end inside a string or comment is such a writing. *)
Theorem C74_every_text : forall s ts, tokens s ts -> ends_closed (map text_kind ts) -> spelled (map text_kind ts) /\ spelling (map text_kind ts) = s.
Proof.
  intros s ts T C. split; [by eapply scan_is_spelled|]. rewrite <- (scan_texts _ _ _ _ _ T). unfold spelling, texts. by rewrite map_map.
Qed.

(** Separators matter: two words in a row are read as one, and a comment that
    is not followed by a line break swallows what follows. *)
Theorem C74_separators_matter_refuted : ~ (forall toks : list (str * kind), Forall (fun t => spelled [t]) toks -> spelled toks).
Proof.
  intros H. specialize (H [($"a", kind_new $"a"); ($"b", kind_new $"b")]).
  assert (W : forall c, (c =? "a")%char || (c =? "b")%char = true -> go_word [c]).
  { intros c Hc. split; [done|]. split.
    - intros x Hx. apply elem_of_list_singleton in Hx as ->. apply orb_true_iff in Hc as [Hc|Hc]; apply Ascii.eqb_eq in Hc as ->; eapply bool_decide_unpack; vm_compute; exact Logic.I.
    - split; intros b1 b2 E; apply (f_equal length) in E; rewrite !app_length in E; cbn in E; lia. }
  assert (Sp : spelled [($"a", kind_new $"a"); ($"b", kind_new $"b")]).
  { apply H. constructor; [apply sp_word; [by apply (W "a"%char)|done|constructor]|]. constructor; [|constructor]. apply sp_word; [by apply (W "b"%char)|done|constructor]. }
  assert (Sp' : spelled [($"ab", kind_new $"ab")]).
  { apply sp_word; [|done|constructor]. split; [done|]. split.
    - intros x Hx. revert x Hx. apply Forall_forall. eapply bool_decide_unpack. vm_compute. exact Logic.I.
    - split; intros b1 b2 E; destruct b1 as [|? [|? [|? b1]]]; try discriminate E. }
  discriminate (C74_unambiguous _ _ Sp Sp' eq_refl).
Qed.
Example C74_example : exists toks : list (str * kind), spelled toks /\ spelling toks = $"x := ""a"" // c
".
Proof.
  eexists. split; [|].
  2: instantiate (1 := [($"x", kind_new $"x"); ($" ", kind_new $" "); ($":", kind_new $":"); ($"=", kind_new $"="); ($" ", kind_new $" "); ($"""a""", KString); ($" ", kind_new $" "); ($"//" ++ $" c", KComment); ([c_nl], kind_new [c_nl])]); reflexivity.
  assert (Sep : forall c, c ∈ [c_sp; ":"%char; c_nl] -> c ∈ separators).
  { intros c Hc. revert c Hc. apply Forall_forall. eapply bool_decide_unpack. vm_compute. exact Logic.I. }
  assert (W : forall c, c ∈ ["x"%char; "="%char] -> go_word [c]).
  { intros c Hc. split; [done|]. split.
    - intros x Hx. apply elem_of_list_singleton in Hx as ->. revert c Hc. apply Forall_forall. eapply bool_decide_unpack. vm_compute. exact Logic.I.
    - split; intros b1 b2 E; apply (f_equal length) in E; rewrite !app_length in E; cbn in E; lia. }
  assert (Hs : forall c, c = c_sp -> c ∈ separators) by (intros c ->; apply Sep; left).
  apply sp_word; [apply (W "x"%char); left|left; exists c_sp; split; [by apply Hs|done]|].
  apply (sp_sep c_sp); [by apply Hs|]. apply (sp_sep ":"%char); [apply Sep; right; left|].
  apply sp_word; [apply (W "="%char); right; left|left; exists c_sp; split; [by apply Hs|done]|].
  apply (sp_sep c_sp); [by apply Hs|]. apply (sp_delim DString); [done| |].
  { apply (go_string_whole $"a"); [repeat (constructor; [discriminate|discriminate|]); constructor|discriminate]. }
  apply (sp_sep c_sp); [by apply Hs|]. apply sp_line; [eapply bool_decide_unpack; vm_compute; exact Logic.I|].
  apply (sp_sep c_nl); [apply Sep; right; right; left|constructor].
Qed.
