(** Tokenising a text that continues a complete one. *)
From Verif Require Import SpecLocal LexSpecProofs.

Lemma opens_app s s2 : opens s -> opens (s ++ s2).
Proof. intros [d P]. exists d. by apply prefix_app_r. Qed.
Lemma opens_app_inv c d s s2 : opens ((c :: d :: s) ++ s2) -> opens (c :: d :: s).
Proof.
  intros [o [q E]]. exists o. destruct o; cbn [opener app] in *.
  - injection E as -> _. by exists (d :: s).
  - injection E as -> _. by exists (d :: s).
  - injection E as -> -> _. by exists s.
  - injection E as -> -> _. by exists s.
Qed.
Lemma shortest_app P s s2 t : shortest P s t -> shortest P (s ++ s2) t.
Proof.
  intros (Pr & Pt & M). split; [by apply prefix_app_r|]. split; [done|]. intros u Pu Hu.
  destruct (decide (length t <= length u)) as [L|L]; [done|]. apply M; [|done].
  destruct Pr as [r ->]. rewrite <- app_assoc in Pu. destruct Pu as [q E].
  assert (Lu : u = take (length u) t).
  { apply (f_equal (take (length u))) in E. rewrite take_app in E. rewrite take_app_le in E by lia. by symmetry. }
  exists (drop (length u) t ++ r). rewrite Lu at 1. by rewrite app_assoc, take_drop.
Qed.
Lemma token_app s t k r s2 : token s t k r -> r <> [] \/ t = [c_nl] -> token (s ++ s2) t k (r ++ s2).
Proof.
  intros T H. destruct T as [c r Hc|w r Nw Hw Hr|d t r Nd Sh|t r Sh|d t C].
  - by apply tk_separator.
  - destruct H as [H|H].
    + rewrite <- app_assoc. apply tk_word; [done| |].
      * intros w1 c w2 E. destruct (Hw w1 c w2 E) as [Hc Ho]. split; [done|]. intros O. apply Ho.
        destruct w2 as [|d w2], r as [|e r]; try done; cbn [app] in *.
        -- by apply (opens_app_inv c e r s2).
        -- change (w2 ++ e :: r ++ s2) with (w2 ++ (e :: r) ++ s2) in O. rewrite app_assoc in O. by apply (opens_app_inv c d (w2 ++ e :: r) s2). 
        
      * right. destruct Hr as [Hr|[Hr|(c & Hc & Sc)]]; [done|left; by apply opens_app|]. right. exists c. split; [|done]. by destruct r.
    + subst w. destruct (Hw [] c_nl [] eq_refl) as [Hc _]. exfalso. apply Hc. eapply bool_decide_unpack. vm_compute. exact I.
  - rewrite <- app_assoc. apply tk_delim; [done|]. rewrite app_assoc. by apply shortest_app.
  - rewrite <- app_assoc. cbn [app]. apply tk_line. change (t ++ c_nl :: r ++ s2) with (t ++ (c_nl :: r) ++ s2). rewrite app_assoc. by apply shortest_app.
  - destruct H as [H|H]; [done|]. subst t. exfalso. destruct C as [P _]. apply opener_head in P as (c & r & E & X). injection E as <- <-.
    destruct X as [X|[X|X]]; discriminate X.
Qed.

Lemma bracket_open n b st t b' st' : closers st -> bracket_step n b st t b' st' ->
  forall ts, open_brackets (map fst st) (t :: ts) = open_brackets (map fst st') ts.
Proof.
  intros Cl B ts. destruct lparen_no_word as [P1 P2]. cbn [open_brackets].
  destruct B as [| |c b' st' ->|t W|t W N1 N2 Nc].
  - done.
  - done.
  - inversion Cl as [|? ? Hc ?]; subst. cbn in Hc. destruct Hc as [-> | ->]; reflexivity.
  - rewrite bool_decide_eq_false_2 by (by intros ->). rewrite bool_decide_eq_false_2 by (by intros ->).
    destruct st as [|[c b0] st]; [done|]. cbn [map fst]. rewrite bool_decide_eq_false_2; [done|]. intros ->.
    inversion Cl as [|? ? Hc ?]; subst. cbn in Hc. destruct W as [_ W]. by apply (W c eq_refl), closer_sep.
  - rewrite bool_decide_eq_false_2 by done. rewrite bool_decide_eq_false_2 by done.
    destruct st as [|[c b0] st]; [done|]. cbn [map fst]. rewrite bool_decide_eq_false_2; [done|]. by eapply Nc.
Qed.
Lemma scan_app n b st s1 ts1 : scan n b st s1 ts1 -> closers st -> ts1 <> [] -> (exists t, last ts1 = Some t /\ snd (fst t) = [c_nl]) ->
  exists b' st', closers st' /\ map fst st' = open_brackets (map fst st) (tok_texts ts1) /\
    forall s2 ts2, scan (n + count_nl s1) b' st' s2 ts2 -> scan n b st (s1 ++ s2) (ts1 ++ ts2).
Proof.
  induction 1 as [n b st|n b st s t k r m b' st' ts T L B S IH]; intros Cl Ne (x & La & Ex); [done|].
  pose proof (bracket_closers _ _ _ _ _ _ B Cl) as Cl'. pose proof (token_text _ _ _ _ T) as Es.
  destruct ts as [|t2 ts].
  - injection La as <-. cbn in Ex. subst t. apply scan_text in S as Er. cbn in Er. subst r. rewrite app_nil_r in Es. subst s.
    exists b', st'. split; [done|]. split; [cbn [tok_texts map fst snd]; by rewrite (bracket_open _ _ _ _ _ _ Cl B [])|].
    intros s2 ts2 S2. cbn [app]. eapply sc_cons; [|exact L|exact B|exact S2]. apply (token_app _ _ _ _ s2 T). by right.
  - destruct IH as (b2 & st2 & C2 & O2 & F2); [done|done|by exists x|]. exists b2, st2. split; [done|]. split.
    + cbn [tok_texts map fst snd]. by rewrite (bracket_open _ _ _ _ _ _ Cl B).
    + intros s2 ts2 S2. cbn [app]. eapply sc_cons; [apply (token_app _ _ _ _ s2 T)|exact L|exact B|].
      * left. intros ->. apply scan_nil_inv in S. done.
      * apply F2. subst s. rewrite count_nl_app, Z.add_assoc in S2. exact S2.
Qed.

Definition down_st (d : Z) (st : brackets) : brackets := map (fun p => (fst p, snd p + d)%Z) st.
Lemma scan_down d n b st s ts : scan n b st s ts -> forall b2,
  (b2 = b + d \/ st = [] /\ forall xs c ys, tok_texts ts = xs ++ c :: ys -> c = $"(" \/ c = $"{" -> exists w, w ∈ xs /\ is_word w)%Z ->
  scan (n + d) b2 (down_st d st) s (map (down_tok d) ts).
Proof.
  induction 1 as [n b st|n b st s t k r m b' st' ts T L B S IH]; intros b2 Hb; [constructor|].
  cbn [map]. unfold down_tok at 1. cbn [fst snd].
  assert (Hp : b2 = (b + d)%Z \/ (t <> $"(" /\ t <> $"{")).
  { destruct Hb as [Hb|[_ Hb]]; [by left|right]. split; intros ->; destruct (Hb [] _ _ eq_refl) as (w & Hw & _); [by left|by apply elem_of_nil in Hw|by right|by apply elem_of_nil in Hw]. }
  assert (L2 : line_rule (n + d) b2 t (m + d)).
  { destruct L as (A1 & A2 & A3). split; [intros Hc; rewrite A1 by done; lia|]. split.
    - intros Hc. destruct Hp as [->|[? ?]]; [by rewrite A2|tauto].
    - intros H1 H2 H3. by rewrite A3. }
  assert (Step : exists b2', bracket_step (n + d) b2 (down_st d st) t b2' (down_st d st') /\ (b2' = b' + d \/ b' = b /\ b2' = b2 /\ st' = st /\ ~ is_word t)%Z).
  { destruct B as [| |c b' st' ->|t W|t W N1 N2 Nc].
    - destruct Hp as [->|[? ?]]; [|done]. exists (n + d)%Z. split; [apply bs_paren|by left].
    - destruct Hp as [->|[? ?]]; [|done]. exists (n + d)%Z. split; [apply bs_curly|by left].
    - exists (b' + d)%Z. split; [|by left]. by apply bs_close.
    - exists (n + d)%Z. split; [by apply bs_word|by left].
    - exists b2. split; [|by right]. apply bs_other; try done. intros c b0 st0 E. destruct st as [|[c1 b1] st]; [done|]. injection E as -> _ _. by eapply Nc. }
  destruct Step as (b2' & St & R). eapply sc_cons; [exact T|exact L2|exact St|].
  replace (n + d + count_nl t)%Z with (n + count_nl t + d)%Z by lia. apply IH.
  destruct R as [R|(-> & -> & -> & Nw)]; [by left|]. destruct Hb as [Hb|[Hs Hb]]; [by left|right]. split; [done|].
  intros xs c ys E Hc. destruct (Hb (t :: xs) c ys) as (w & Hw & Iw); [cbn [tok_texts map fst snd]; cbn [app]; f_equal; exact E|done|].
  exists w. split; [|done]. apply elem_of_cons in Hw as [->|Hw]; [done|done].
Qed.
(** The two together. *)
Lemma tokens_app A B tsA tsB : complete A -> begins_scope B -> tokens A tsA -> tokens B tsB ->
  tokens (A ++ B) (tsA ++ map (down_tok (count_nl A)) tsB).
Proof.
  intros (ts & t & T & La & Et & Op) (ts2 & t2 & ts2' & T2 & E2 & _ & W) TA TB.
  rewrite <- (tokens_unique _ _ _ TA T) in *. rewrite <- (tokens_unique _ _ _ TB T2) in *. clear ts ts2 T T2.
  destruct (scan_app 0 0 [] A tsA TA ltac:(constructor) ltac:(by intros ->) ltac:(by exists t)) as (b' & st' & _ & Es & F).
  cbn [map] in Es. rewrite Op in Es. destruct st'; [|done]. apply F.
  change (@nil (ascii * Z)) with (down_st (count_nl A) []). apply scan_down with (b := 0%Z); [exact TB|]. by right.
Qed.
