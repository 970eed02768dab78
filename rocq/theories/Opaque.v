(** Tokenising a text with some tokens exchanged. *)
From Verif Require Import SpecOpaque LexSpecProofs LocalLex HeaderProofs.

Lemma plain_no_open w r : plain_word w -> ~ opens (w ++ r).
Proof.
  intros [N P] [d O]. apply opener_head in O as (c & r0 & E & X). destruct w as [|x w]; [done|]. injection E as -> _.
  destruct (P c ltac:(by left)) as (_ & ? & ? & ?). by destruct X as [?|[?|?]].
Qed.
Lemma plain_is_word w : plain_word w -> is_word w.
Proof.
  intros P. split; [rewrite <- (app_nil_r w); by apply plain_no_open|]. intros c ->. destruct P as [_ P]. by destruct (P c ltac:(by left)).
Qed.
Lemma ic_sep c t : c ∈ separators -> interchangeable [c] t -> t = [c].
Proof.
  intros Hc H. remember [c] as u eqn:E. destruct H as [t|w w' Pw _ _ _|d t t' _ W _ _|b b' _ _ _].
  - done.
  - subst w. destruct Pw as [_ Pw]. by destruct (Pw c ltac:(by left)).
  - subst t. destruct W as [C _]. destruct (sep_no_open c [] Hc). exists d. by apply closed_opener.
  - done.
Qed.
Lemma ic_opener t t' d : interchangeable t t' -> opener d `prefix_of` t -> opener d `prefix_of` t'.
Proof.
  intros H P. destruct H as [t|w w' Pw _ _ _|e t t' _ W W' _|b b' _ _ _].
  - done.
  - exfalso. eapply (plain_no_open w []); [done|]. rewrite app_nil_r. by exists d.
  - destruct W as [C _], W' as [C' _]. apply closed_opener in C, C'. by rewrite (opener_inj d e t P C).
  - assert (d = DLine) as -> by (apply (opener_inj d DLine _ P); by exists b). by exists b'.
Qed.
Lemma whole_shortest d t r : whole d t -> shortest (closed d) (t ++ r) t.
Proof.
  intros [C U]. split; [by exists r|]. split; [done|]. intros u P Cu. destruct (decide (length t <= length u)) as [|L]; [done|].
  destruct (prefix_shorter u (t ++ r) t P ltac:(by exists r) L) as (k & _ & E). rewrite (U u ltac:(by exists k) Cu). lia.
Qed.
Lemma shortest_whole d t r : shortest (closed d) (t ++ r) t -> whole d t.
Proof.
  intros (_ & C & M). split; [done|]. intros u [q ->] Cu. specialize (M u ltac:(exists (q ++ r); by rewrite app_assoc) Cu). rewrite app_length in M.
  assert (q = []) as -> by (destruct q; [done|]; cbn in M; lia). by rewrite app_nil_r.
Qed.
Lemma line_closed t : closed DLine (t ++ [c_nl]) -> c_nl ∉ t -> exists b, t = $"//" ++ b.
Proof.
  intros (b & E) _. exists b. change ($"//" ++ b ++ [c_nl]) with (($"//" ++ b) ++ [c_nl]) in E. by apply app_inj_2 in E as [-> _].
Qed.
Lemma line_whole b r : c_nl ∉ b -> shortest (closed DLine) (($"//" ++ b) ++ c_nl :: r) (($"//" ++ b) ++ [c_nl]).
Proof.
  intros N. assert (Q : whole DLine (($"//" ++ b) ++ [c_nl])).
  { split; [by exists b|]. intros u [q E] [b1 ->]. change ("/"%char :: "/"%char :: (b ++ [c_nl]) = "/"%char :: "/"%char :: (b1 ++ [c_nl]) ++ q) in E. injection E as E. rewrite <- app_assoc in E. cbn [app] in E.
    destruct q as [|x q _] using rev_ind; [apply app_inj_tail in E as [-> _]; done|]. exfalso. change (c_nl :: q ++ [x]) with ((c_nl :: q) ++ [x]) in E. rewrite app_assoc in E. apply app_inj_tail in E as [-> _].
    apply N. apply elem_of_app. right. by left. }
  pose proof (whole_shortest _ _ r Q) as S. rewrite <- app_assoc in S. exact S.
Qed.
Lemma shortest_line_no_nl t r : shortest (closed DLine) (t ++ c_nl :: r) (t ++ [c_nl]) -> c_nl ∉ t.
Proof.
  intros Sh H. assert (W : whole DLine (t ++ [c_nl])) by (apply (shortest_whole DLine (t ++ [c_nl]) r); rewrite <- app_assoc; exact Sh).
  destruct W as [[b E] U]. change ($"//" ++ b ++ [c_nl]) with (($"//" ++ b) ++ [c_nl]) in E. apply app_inj_tail in E as [-> _].
  assert (Hb : c_nl ∈ b) by (apply elem_of_app in H as [H|H]; [exfalso; by do 2 (apply elem_of_cons in H as [H|H]; [discriminate H|]); apply elem_of_nil in H|done]).
  apply elem_of_list_split in Hb as (b1 & b2 & ->).
  assert (X : $"//" ++ b1 ++ [c_nl] = ($"//" ++ b1 ++ c_nl :: b2) ++ [c_nl]).
  { apply U; [exists (b2 ++ [c_nl]); by rewrite <- !app_assoc|by exists b1]. }
  apply (f_equal length) in X. rewrite !app_length in X. cbn in X. rewrite ?app_length in X. cbn in X. lia.
Qed.

(** What may follow a word goes on in the same way. *)
Definition rest_alike (r r' : str) : Prop :=
  (r = [] <-> r' = []) /\ (opens r -> opens r') /\ (word_ends r -> head r = head r').
Lemma token_word_ends s t k r : token s t k r -> word_ends s -> (exists c, c ∈ separators /\ t = [c]) \/ exists d, opener d `prefix_of` t.
Proof.
  intros T We. destruct T as [c r Hc|w r Nw Hw Hr|d t r Nd Sh|t r Sh|d t C].
  - left. by exists c.
  - exfalso. destruct w as [|x w]; [done|]. destruct (Hw [] x w eq_refl) as [H1 H2]. destruct We as [We|[We|(c & E & Hc)]]; [done|by apply H2|]. cbn in E. by injection E as ->.
  - right. exists d. apply closed_opener. apply Sh.
  - right. exists DLine. destruct Sh as (_ & Cl & _). destruct Cl as (b & E). change ($"//" ++ b ++ [c_nl]) with (($"//" ++ b) ++ [c_nl]) in E. apply app_inj_tail in E as [-> _]. by exists b.
  - right. exists d. apply C.
Qed.
Lemma scan_rest n b st r ts ws : scan n b st r ts -> Forall2 interchangeable (tok_texts ts) ws -> rest_alike r (concat ws).
Proof.
  intros S F. destruct S as [n b st|n b st s t k r m b' st' ts T L B S]; cbn [tok_texts map] in F.
  - apply Forall2_nil_inv_l in F as ->. by split; [|split].
  - apply Forall2_cons_inv_l in F as (t' & ws' & I & F & ->). cbn [concat fst snd] in *.
    pose proof (token_text _ _ _ _ T) as Es. pose proof (token_nonempty _ _ _ _ T) as Nt.
    assert (Nt' : t' <> []).
    { destruct I as [|? ? _ [P _] _ _|d ? ? _ _ [C _] _|]; try done. by eapply closed_nonempty. }
    split; [|split].
    + subst s. split; intros E; exfalso; by apply app_eq_nil in E as [? _].
    + intros O. destruct (token_word_ends _ _ _ _ T ltac:(by right; left)) as [(c & Hc & ->)|[d P]].
      * exfalso. subst s. cbn in O. by apply sep_no_open in O.
      * exists d. apply prefix_app_r. by eapply ic_opener.
    + intros We. destruct (token_word_ends _ _ _ _ T We) as [(c & Hc & ->)|[d P]].
      * apply ic_sep in I as ->; [|done]. by subst s.
      * pose proof (ic_opener _ _ _ I P) as P'. subst s. destruct P as [q ->], P' as [q' ->]. by destruct d.
Qed.
Lemma opens_two c r r' : opens (c :: r') -> head r = head r' -> r <> [] -> opens (c :: r).
Proof.
  intros [d [q E]] H N. exists d. destruct d; cbn [opener app] in E |- *.
  - injection E as -> _. by exists r.
  - injection E as -> _. by exists r.
  - injection E as -> ->. destruct r as [|x r]; [done|]. injection H as ->. by exists r.
  - injection E as -> ->. destruct r as [|x r]; [done|]. injection H as ->. by exists r.
Qed.
Lemma token_exchange s t k r t' r' : token s t k r -> interchangeable t t' -> rest_alike r r' -> (forall u, r = c_nl :: u -> exists u', r' = c_nl :: u') ->
  token (t' ++ r') t' k r'.
Proof.
  intros T I (R1 & R2 & R3) Rn. destruct T as [c r Hc|w r Nw Hw Hr|d t r Nd Sh|t r Sh|d t C].
  - apply ic_sep in I as ->; [|done]. by apply tk_separator.
  - assert (We : word_ends r') by (destruct Hr as [Hr|[Hr|(c & E & Hc)]]; [left; by apply R1|right; left; by apply R2|right; right; exists c; rewrite <- R3; [done|right; right; by exists c]]).
    specialize (R3 Hr). inversion I as [|? ? P P' K _|d ? ? _ [C _] _ _|b b' _ _ _]; subst.
    + apply tk_word; [done| |done]. intros w1 c w2 E. destruct (Hw w1 c w2 E) as [H1 H2]. split; [done|]. intros O. apply H2.
      destruct w2 as [|d w2].
      * cbn [app] in *. destruct r as [|x r]; [|by eapply opens_two]. rewrite (proj1 R1 eq_refl) in O. exact O.
      * apply (opens_app (c :: d :: w2) r), (opens_app_inv c d w2 r'). exact O.
    + rewrite K. by apply plain_token.
    + exfalso. eapply (word_no_open w r); [done|done|]. apply opens_app. exists d. by apply closed_opener.
    + exfalso. eapply (word_no_open _ r); [done|exact Hw|]. apply opens_app. exists DLine. by exists b.
  - apply shortest_whole in Sh. inversion I as [|? ? P _ _ _|e ? ? Ne W W' _|b b' N _ _]; subst.
    + apply tk_delim; [done|]. by apply whole_shortest.
    + exfalso. eapply (plain_no_open t []); [done|]. rewrite app_nil_r. exists d. apply closed_opener. apply Sh.
    + assert (d = e) as -> by (apply (opener_inj d e t); apply closed_opener; [apply Sh|apply W]). apply tk_delim; [done|]. by apply whole_shortest.
    + exfalso. apply Nd. apply (opener_inj d DLine ($"//" ++ b)); [apply closed_opener, Sh|by exists b].
  - destruct (Rn r eq_refl) as [u' ->]. pose proof (shortest_line_no_nl _ _ Sh) as N.
    assert (Q : exists b, t = $"//" ++ b) by (apply line_closed; [apply Sh|done]). destruct Q as [b ->].
    assert (Hb : exists b', t' = $"//" ++ b' /\ c_nl ∉ b').
    { inversion I as [|? ? P _ _ _|e ? ? Ne W W' _|b1 b' N1 N2 _ E1 E2]; subst.
      - exists b. split; [done|]. intros H. apply N. apply elem_of_app. by right.
      - exfalso. eapply (plain_no_open _ []); [exact P|]. rewrite app_nil_r. exists DLine. by exists b.
      - exfalso. apply Ne. apply (opener_inj e DLine ($"//" ++ b)); [apply closed_opener, W|by exists b].
      - by exists b'. }
    destruct Hb as (b' & -> & N'). apply tk_line. by apply line_whole.
  - assert (r' = []) as -> by (by apply R1). rewrite app_nil_r. inversion I as [|? ? P _ _ _|e ? ? Ne W W' _|b b' N1 N2 K]; subst.
    + by eapply tk_cut_off.
    + exfalso. eapply (plain_no_open t []); [done|]. rewrite app_nil_r. exists d. apply C.
    + exfalso. assert (d = e) as -> by (apply (opener_inj d e t); [apply C|apply closed_opener, W]). destruct C as [_ C]. by apply (C t), W.
    + rewrite K. apply (tk_cut_off DLine). split; [by exists b'|]. intros u [q E] [b1 ->]. apply N2.
      change ("/"%char :: "/"%char :: b' = "/"%char :: "/"%char :: (b1 ++ [c_nl]) ++ q) in E. injection E as ->. apply elem_of_app. left. apply elem_of_app. right. by left.
Qed.
Lemma ic_sym t t' : interchangeable t t' -> interchangeable t' t.
Proof.
  intros H. destruct H as [t|w w' P P' K B|d t t' N W W' C|b b' N N' K]; [constructor|by apply ic_word|by apply (ic_delim d)|by apply ic_line].
Qed.
Lemma ic_count t t' : interchangeable t t' -> count_nl t = count_nl t'.
Proof.
  intros H. destruct H as [t|w w' P P' K B|d t t' N W W' C|b b' N N' K]; [reflexivity|by rewrite (plain_no_nl w P), (plain_no_nl w' P')|exact C|].
  rewrite !(count_nl_app $"//"), (count_nl_none b N), (count_nl_none b' N'). reflexivity.
Qed.
Lemma ic_cut t t' : interchangeable t t' -> (exists d, cut_off d t) -> exists d, cut_off d t'.
Proof.
  intros H [d C]. destruct H as [t|w w' P P' K B|e t t' N W W' _|b b' N N' K].
  - by exists d.
  - exfalso. eapply (plain_no_open w []); [done|]. rewrite app_nil_r. exists d. apply C.
  - exfalso. assert (d = e) as -> by (apply (opener_inj d e t); [apply C|apply closed_opener, W]). destruct C as [_ C]. by apply (C t), W.
  - exists DLine. split; [by exists b'|]. intros u [q E] [b1 ->]. apply N'.
    change ("/"%char :: "/"%char :: b' = "/"%char :: "/"%char :: (b1 ++ [c_nl]) ++ q) in E. injection E as ->. apply elem_of_app. left. apply elem_of_app. right. by left.
Qed.
Lemma ic_single c t t' : c ∈ separators -> interchangeable t t' -> t = [c] <-> t' = [c].
Proof. intros Hc I. split; intros ->; [by apply (ic_sep c)|apply (ic_sep c); [done|by apply ic_sym]]. Qed.
Lemma paren_sep : "("%char ∈ separators /\ "{"%char ∈ separators /\ ")"%char ∈ separators /\ "}"%char ∈ separators.
Proof. split; [|split; [|split]]; eapply bool_decide_unpack; vm_compute; exact I. Qed.
Lemma ic_is_word t t' : interchangeable t t' -> is_word t -> is_word t'.
Proof.
  intros I [N S]. split.
  - intros [d P]. apply N. exists d. by eapply ic_opener; [apply ic_sym|].
  - intros c -> Hc. apply (S c); [|done]. apply (ic_sep c); [done|]. by apply ic_sym.
Qed.
Lemma ic_line_rule n b t t' m : interchangeable t t' -> line_rule n b t m -> line_rule n b t' m.
Proof.
  intros I (L1 & L2 & L3). destruct paren_sep as (S1 & S2 & _). pose proof (ic_single _ _ _ S1 I) as Q1. pose proof (ic_single _ _ _ S2 I) as Q2. change $"(" with ["("%char] in *. change $"{" with ["{"%char] in *.
  split; [|split].
  - intros C. rewrite <- (ic_count _ _ I). apply L1. eapply ic_cut; [by apply ic_sym|exact C].
  - intros H. apply L2. by rewrite Q1, Q2.
  - intros C H1 H2. apply L3; [|by rewrite Q1|by rewrite Q2]. intros C'. apply C. by eapply ic_cut.
Qed.
Lemma ic_bracket n b st t t' b' st' : closers st -> interchangeable t t' -> bracket_step n b st t b' st' -> bracket_step n b st t' b' st'.
Proof.
  intros Cl I B. destruct paren_sep as (S1 & S2 & S3 & S4). destruct B as [| |c b' st' E|t W|t N N1 N2 N3].
  - apply (ic_sep "("%char) in I as ->; [constructor|done].
  - apply (ic_sep "{"%char) in I as ->; [constructor|done].
  - subst st. apply Forall_cons in Cl as [Cl _]. apply ic_sep in I as ->; [by econstructor|]. by apply closer_sep.
  - apply bs_word. by eapply ic_is_word.
  - apply bs_other.
    + intros W. apply N. eapply ic_is_word; [by apply ic_sym|exact W].
    + intros E. apply N1. by apply (ic_single "("%char t t' S1 I).
    + intros E. apply N2. by apply (ic_single "{"%char t t' S2 I).
    + intros c b' st' E E'. apply (N3 c b' st' E). subst st. apply Forall_cons in Cl as [Cl _]. apply (ic_single c t t'); [by apply closer_sep|done|done].
Qed.
Lemma scan_exchange n b st s ts : scan n b st s ts -> closers st -> forall ws, Forall2 interchangeable (tok_texts ts) ws ->
  exists ts', scan n b st (concat ws) ts' /\ tok_texts ts' = ws /\ Forall2 (fun t u : Z * str * kind => fst (fst t) = fst (fst u) /\ snd t = snd u) ts ts'.
Proof.
  induction 1 as [n b st|n b st s t k r m b' st' ts T L B S IH]; intros Cl ws F; cbn [tok_texts map] in F.
  - apply Forall2_nil_inv_l in F as ->. exists []. split; [constructor|]. by split; [|constructor].
  - apply Forall2_cons_inv_l in F as (t' & ws' & I & F & ->). cbn [fst snd] in I. fold (tok_texts ts) in F.
    destruct (IH (bracket_closers _ _ _ _ _ _ B Cl) ws' F) as (ts' & S' & E & G). pose proof (scan_rest _ _ _ _ _ _ S F) as R.
    exists ((m, t', k) :: ts'). split; [|split; [cbn; by f_equal|by constructor]]. cbn [concat].
    eapply sc_cons; [|by eapply ic_line_rule|by eapply ic_bracket|rewrite <- (ic_count _ _ I); exact S'].
    eapply token_exchange; [exact T|exact I|exact R|]. intros u ->. destruct R as (_ & _ & R). 
    assert (X : head (concat ws') = Some c_nl).
    { rewrite <- R; [done|]. right. right. exists c_nl. split; [done|]. eapply bool_decide_unpack. vm_compute. exact Logic.I. }
    destruct (concat ws') as [|x q]; [done|]. injection X as ->. by exists q.
Qed.
(** Literals as they are written. *)
Lemma token_whole d t k r : d <> DLine -> token (t ++ r) t k r -> closed d t -> whole d t.
Proof.
  intros Nd T C. pose proof (closed_opener _ _ C) as O. apply token_inv in T as [(c & Hc & _ & E & _)|[(e & O' & T)|(N & _)]].
  - exfalso. subst t. destruct (sep_no_open c [] Hc). by exists d.
  - assert (e = d) as -> by (apply (opener_inj e d (t ++ r) O'); by apply prefix_app_r).
    destruct T as [(_ & Sh & _)|[(? & _)|(Co & _)]]; [by eapply shortest_whole|done|]. exfalso. destruct Co as [_ Co]. apply (Co t); [by exists r|done].
  - exfalso. apply N. exists d. by apply prefix_app_r.
Qed.
Lemma go_string_whole b : go_body b -> last b <> Some c_bs -> whole DString ([c_dq] ++ b ++ [c_dq]).
Proof.
  intros G L. eapply (token_whole _ _ KString []); [done| |by exists b]. pose proof (go_string_token b [] G L) as T. by rewrite !app_nil_r in *.
Qed.
Lemma raw_string_whole b : c_bq ∉ b -> whole DRaw ([c_bq] ++ b ++ [c_bq]).
Proof. intros G. eapply (token_whole _ _ KString []); [done| |by exists b]. pose proof (raw_string_token b [] G) as T. by rewrite !app_nil_r in *. Qed.
Lemma block_comment_whole b : absent $"*/" b -> head b <> Some "/"%char -> whole DBlock ($"/*" ++ b ++ $"*/").
Proof.
  intros G H. eapply (token_whole _ _ KComment []); [done| |].
  - pose proof (block_comment_token b [] G H) as T. by rewrite !app_nil_r in *.
  - exists (b ++ ["*"%char]). split; [by rewrite <- !app_assoc|]. by rewrite app_comm_cons, last_snoc.
Qed.
