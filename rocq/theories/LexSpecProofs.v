(** Consequences of the tokeniser's specification alone. *)
From Verif Require Export SpecLex PureProofs.

Lemma count_nl_app a b : count_nl (a ++ b) = (count_nl a + count_nl b)%Z.
Proof. unfold count_nl. rewrite filter_app, app_length. lia. Qed.
Lemma count_nl_nonneg a : (0 <= count_nl a)%Z.
Proof. unfold count_nl. lia. Qed.
Lemma count_nl_cons c a : count_nl (c :: a) = ((if bool_decide (c = c_nl) then 1 else 0) + count_nl a)%Z.
Proof.
  change (c :: a) with ([c] ++ a). rewrite count_nl_app. f_equal. unfold count_nl. rewrite filter_cons, filter_nil.
  case_bool_decide as D; destruct (decide (c = c_nl)); try done.
Qed.
Lemma count_nl_none a : c_nl ∉ a -> count_nl a = 0%Z.
Proof.
  induction a as [|c a IH]; intros H; [done|]. apply not_elem_of_cons in H as [H1 H2].
  rewrite count_nl_cons, bool_decide_eq_false_2, IH by congruence. done.
Qed.

Lemma closed_nonempty d t : closed d t -> t <> [].
Proof. by destruct d; intros [b H]; [destruct H as [-> _]|subst|destruct H as [-> _]|subst]. Qed.
Lemma closed_opener d t : closed d t -> opener d `prefix_of` t.
Proof.
  destruct d; intros [b H]; [destruct H as [-> _]|subst t|destruct H as [-> _]|subst t]; unfold opener; by apply prefix_app_r.
Qed.
Lemma opener_nonempty d : opener d <> []. Proof. by destruct d. Qed.
Lemma opener_inj d d' s : opener d `prefix_of` s -> opener d' `prefix_of` s -> d = d'.
Proof. intros [k ->] [k' E]. destruct d, d'; try done; discriminate E. Qed.

(** ** A token is a non-empty first piece *)
Lemma token_text s t k r : token s t k r -> s = t ++ r.
Proof. destruct 1; try done. by rewrite app_nil_r. Qed.
Lemma token_nonempty s t k r : token s t k r -> t <> [].
Proof.
  destruct 1 as [c r H|w r NE _ _|d t r _ (_ & C & _)|t r (_ & C & _)|d t [O _]]; try done.
  - by apply closed_nonempty in C.
  - intros ->. destruct C as [b E]. discriminate E.
  - intros ->. apply prefix_nil_inv in O. by destruct (opener_nonempty d).
Qed.
Lemma scan_text n b st s ts : scan n b st s ts -> concat (map (fun t => snd (fst t)) ts) = s.
Proof. induction 1 as [|n b st s t k r m b' st' ts T _ _ _ IH]; [done|]. apply token_text in T as ->. cbn. by rewrite IH. Qed.
Lemma scan_nonempty n b st s ts : scan n b st s ts -> Forall (fun t : Z * str * kind => snd (fst t) <> []) ts.
Proof. induction 1 as [|n b st s t k r m b' st' ts T _ _ _ IH]; constructor; [|done]. by apply token_nonempty in T. Qed.
Lemma scan_nil_inv n b st ts : scan n b st [] ts -> ts = [].
Proof.
  intros H. inversion H as [|? ? ? ? t k r m b' st' ts' T]; subst; [done|]. pose proof (token_text _ _ _ _ T) as E.
  apply token_nonempty in T. symmetry in E. by apply app_nil in E as [? _].
Qed.

(** ** The first token is determined *)
Definition sep_ok (c : ascii) : bool :=
  (N_of_ascii c <? 128)%N && negb (bool_decide (c = c_dq)) && negb (bool_decide (c = c_bq)) && negb (bool_decide (c = "/"%char)).
Lemma sep_ok_all : forallb sep_ok separators = true. Proof. vm_compute. reflexivity. Qed.
Lemma separators_facts c : c ∈ separators -> ascii_byte c /\ c <> c_dq /\ c <> c_bq /\ c <> "/"%char.
Proof.
  intros H. pose proof (lits _ _ c sep_ok_all H) as G. unfold sep_ok in G.
  rewrite !andb_true_iff, !negb_true_iff, !bool_decide_eq_false, N.ltb_lt in G. unfold ascii_byte. tauto.
Qed.
Lemma opener_head d s : opener d `prefix_of` s -> exists c r, s = c :: r /\ (c = c_dq \/ c = c_bq \/ c = "/"%char).
Proof. intros [k ->]. destruct d; cbn; eexists _, _; (split; [reflexivity|]); tauto. Qed.
Lemma sep_no_open c s : c ∈ separators -> ~ opens (c :: s).
Proof.
  intros H [d O]. apply opener_head in O as (c' & r & [= <- <-] & O). apply separators_facts in H. naive_solver.
Qed.
Lemma shortest_unique P s t t' : shortest P s t -> shortest P s t' -> t = t'.
Proof.
  intros (A & B & C) (A' & B' & C'). pose proof (C t' A' B'). pose proof (C' t A B).
  destruct A as [k ->], A' as [k' E]. apply app_inj_1 in E; [tauto|lia].
Qed.
Lemma shortest_not_cut d s t : shortest (closed d) s t -> ~ cut_off d s.
Proof. intros (A & B & _) [_ C]. by apply (C t). Qed.
Lemma shortest_opens d s t : shortest (closed d) s t -> opener d `prefix_of` s.
Proof. intros (A & B & _). apply closed_opener in B. by etransitivity. Qed.
Lemma word_no_open w r : w <> [] -> (forall w1 c w2, w = w1 ++ c :: w2 -> c ∉ separators /\ ~ opens (c :: w2 ++ r)) -> ~ opens (w ++ r).
Proof. intros NE H. destruct w as [|c w]; [done|]. by destruct (H [] c w eq_refl). Qed.

Lemma word_end w r w' r' : w ++ r = w' ++ r' -> length w < length w' ->
  (forall w1 c w2, w' = w1 ++ c :: w2 -> c ∉ separators /\ ~ opens (c :: w2 ++ r')) ->
  ~ (r = [] \/ opens r \/ exists c, head r = Some c /\ c ∈ separators).
Proof.
  intros E L H B. apply app_eq_inv in E as [(k & -> & E)|(k & -> & E)].
  { rewrite app_length in L. lia. }
  destruct k as [|c k]; [rewrite app_nil_r in L; lia|]. subst r.
  destruct (H w c k eq_refl) as [H1 H2]. destruct B as [B|[B|(c' & B1 & B2)]]; [discriminate B|by apply H2 in B|].
  cbn in B1. by injection B1 as ->.
Qed.
(** Which rule applies is decided by the beginning of the text. *)
Inductive start (s : str) : Prop :=
| st_sep c r : s = c :: r -> c ∈ separators -> start s
| st_open d : opener d `prefix_of` s -> start s
| st_word : ~ opens s -> (forall c, head s = Some c -> c ∉ separators) -> start s.
Lemma token_inv s t k r : token s t k r ->
  (exists c, c ∈ separators /\ s = c :: r /\ t = [c] /\ k = kind_new [c]) \/
  (exists d, opener d `prefix_of` s /\
     ((d <> DLine /\ shortest (closed d) s t /\ k = dkind d) \/
      (d = DLine /\ shortest (closed d) s (t ++ [c_nl]) /\ k = KComment) \/
      (cut_off d s /\ t = s /\ k = kind_new s))) \/
  (~ opens s /\ (forall c, head s = Some c -> c ∉ separators) /\ k = kind_new t /\
     (forall w1 c w2, t = w1 ++ c :: w2 -> c ∉ separators /\ ~ opens (c :: w2 ++ r)) /\
     (r = [] \/ opens r \/ exists c, head r = Some c /\ c ∈ separators)).
Proof.
  destruct 1 as [c r H|w r NE H B|d t r ND S|t r S|d t C].
  - left. by exists c.
  - right. right. split_and!; try done; [by apply word_no_open|].
    intros c Hc. destruct w as [|c' w]; [done|]. injection Hc as <-. by destruct (H [] c' w eq_refl).
  - right. left. exists d. split; [by eapply shortest_opens|]. left. done.
  - right. left. exists DLine. split; [by eapply shortest_opens|]. right. left. done.
  - right. left. exists d. split; [apply C|]. right. right. done.
Qed.
Lemma token_unique s t k r t' k' r' : token s t k r -> token s t' k' r' -> t = t' /\ k = k' /\ r = r'.
Proof.
  intros H H'. pose proof (token_text _ _ _ _ H) as E. pose proof (token_text _ _ _ _ H') as E'.
  enough (G : t = t' /\ k = k').
  { destruct G as [<- <-]. split_and!; try done. rewrite E in E'. by apply app_inv_head in E'. }
  pose proof (token_nonempty _ _ _ _ H) as NE. pose proof (token_nonempty _ _ _ _ H') as NE'.
  apply token_inv in H as [(c & Hc & -> & -> & ->)|[(d & Hd & H)|(N1 & N2 & -> & H & B)]];
  apply token_inv in H' as [(c' & Hc' & E2 & -> & ->)|[(d' & Hd' & H')|(N1' & N2' & -> & H' & B')]].
  - by injection E2 as -> ->.
  - exfalso. apply (sep_no_open c r Hc). by exists d'.
  - exfalso. by apply (N2' c).
  - exfalso. apply (sep_no_open c' r' Hc'). exists d. by rewrite <- E2.
  - pose proof (opener_inj _ _ _ Hd Hd') as <-.
    destruct H as [(D & S & ->)|[(-> & S & ->)|(C & -> & ->)]], H' as [(D' & S' & ->)|[(? & S' & ->)|(C' & -> & ->)]]; try done.
    + split; [by eapply shortest_unique|done].
    + by apply shortest_not_cut in S.
    + pose proof (shortest_unique _ _ _ _ S S') as G. apply app_inv_tail in G. done.
    + by apply shortest_not_cut in S.
    + by apply shortest_not_cut in S'.
    + by apply shortest_not_cut in S'.
  - exfalso. apply N1'. by exists d.
  - exfalso. apply (N2 c'); [by rewrite E2|done].
  - exfalso. apply N1. by exists d'.
  - enough (t = t') as -> by done. rewrite E in E'.
    destruct (Nat.lt_trichotomy (length t) (length t')) as [L|[L|L]].
    + exfalso. by apply (word_end _ _ _ _ E' L H').
    + by apply app_inj_1 in E' as [? _].
    + exfalso. by apply (word_end _ _ _ _ (eq_sym E') L H).
Qed.
Lemma line_rule_unique n b t m m' : line_rule n b t m -> line_rule n b t m' -> m = m'.
Proof.
  intros (A & B & C) (A' & B' & C').
  destruct (decide (t = $"(")) as [E1|E1]; [rewrite B, B' by tauto; done|].
  destruct (decide (t = $"{")) as [E2|E2]; [rewrite B, B' by tauto; done|].
  assert (DN : ~ ~ (m = m')); [|destruct (decide (m = m')); [done|tauto]].
  intros N. assert (NC : ~ exists d, cut_off d t) by (intros H; apply N; rewrite A, A'; done).
  apply N. rewrite C, C'; done.
Qed.
Lemma lparen_no_word : ~ is_word $"(" /\ ~ is_word $"{".
Proof.
  split; intros [_ H].
  - apply (H "("%char eq_refl). apply (bool_decide_eq_true ("("%char ∈ separators)). vm_compute. reflexivity.
  - apply (H "{"%char eq_refl). apply (bool_decide_eq_true ("{"%char ∈ separators)). vm_compute. reflexivity.
Qed.
(** Only closing brackets are pushed. *)
Definition closers (st : brackets) : Prop := Forall (fun p : ascii * Z => fst p = ")"%char \/ fst p = "}"%char) st.
Lemma closer_sep c : c = ")"%char \/ c = "}"%char -> c ∈ separators.
Proof. intros [-> | ->]; [apply (bool_decide_eq_true (")"%char ∈ separators))|apply (bool_decide_eq_true ("}"%char ∈ separators))]; vm_compute; reflexivity. Qed.
Lemma bracket_closers n b st t b' st' : bracket_step n b st t b' st' -> closers st -> closers st'.
Proof.
  intros B H. destruct B; [constructor; [by left|done]|constructor; [by right|done]| |done|done].
  subst st. by inversion H.
Qed.
Lemma bracket_unique n b st t b1 st1 b2 st2 : closers st ->
  bracket_step n b st t b1 st1 -> bracket_step n b st t b2 st2 -> b1 = b2 /\ st1 = st2.
Proof.
  intros Cl H H'. destruct lparen_no_word as [P1 P2].
  assert (Cs : forall c b' st', st = (c, b') :: st' -> c <> "("%char /\ c <> "{"%char /\ ~ is_word [c]).
  { intros c b' st' ->. inversion Cl as [|? ? Hc ?]; subst; cbn in *. split_and!; [by destruct Hc as [-> | ->]..|].
    intros [_ W]. by apply (W c eq_refl), closer_sep. }
  destruct H; inversion H'; subst; try done; try naive_solver.
Qed.
Lemma scan_unique n b st s ts : scan n b st s ts -> forall ts', closers st -> scan n b st s ts' -> ts = ts'.
Proof.
  induction 1 as [n b st|n b st s t k r m b' st' ts T L B S IH]; intros ts' Cl H'.
  - by rewrite (scan_nil_inv _ _ _ _ H').
  - inversion H' as [|? ? ? ? t' k' r' m' b'' st'' ts'' T' L' B' S']; subst.
    + pose proof (token_text _ _ _ _ T) as E. apply token_nonempty in T. symmetry in E. by apply app_nil in E as [? _].
    + destruct (token_unique _ _ _ _ _ _ _ T T') as (<- & <- & <-).
      rewrite (line_rule_unique _ _ _ _ _ L L'). destruct (bracket_unique _ _ _ _ _ _ _ _ Cl B B') as [<- <-].
      f_equal. apply IH; [by eapply bracket_closers|done].
Qed.
Lemma tokens_unique s ts ts' : tokens s ts -> tokens s ts' -> ts = ts'.
Proof. intros H H'. eapply scan_unique; [exact H|constructor|exact H']. Qed.

(** ** Positions *)
Lemma texts_app a b : texts (a ++ b) = texts a ++ texts b.
Proof. unfold texts. by rewrite map_app, concat_app. Qed.
Lemma scan_texts n b st s ts : scan n b st s ts -> texts ts = s.
Proof. apply scan_text. Qed.
Lemma scan_split ts1 : forall n b st s ts2, closers st -> scan n b st s (ts1 ++ ts2) ->
  exists b' st' s2, s = texts ts1 ++ s2 /\ closers st' /\ scan (n + count_nl (texts ts1)) b' st' s2 ts2.
Proof.
  induction ts1 as [|x ts1 IH]; intros n b st s ts2 Cl H.
  - exists b, st, s. cbn [texts map concat app]. unfold texts, count_nl. cbn. rewrite Z.add_0_r. done.
  - cbn [app] in H. inversion H as [|? ? ? ? t k r m b' st' ts T L B S]; subst.
    apply IH in S as (b2 & st2 & s2 & E & C2 & S2); [|by eapply bracket_closers].
    exists b2, st2, s2. apply token_text in T as ->. rewrite E. unfold texts in *. cbn [map concat fst snd]. rewrite <- app_assoc.
    split_and!; try done. rewrite count_nl_app, Z.add_assoc. done.
Qed.
(** [b] is never beyond the current line. *)
Lemma scan_bounds ts1 : forall n b st s ts2, (0 <= b <= n)%Z -> Forall (fun p : ascii * Z => (0 <= snd p <= n)%Z) st ->
  scan n b st s (ts1 ++ ts2) ->
  exists b' st' s2, (0 <= b' <= n + count_nl (texts ts1))%Z /\ scan (n + count_nl (texts ts1)) b' st' s2 ts2.
Proof.
  induction ts1 as [|x ts1 IH]; intros n b st s ts2 Hb Hs H.
  - exists b, st, s. unfold texts, count_nl. cbn. rewrite Z.add_0_r. done.
  - cbn [app] in H. inversion H as [|? ? ? ? t k r m b' st' ts T L B S]; subst.
    pose proof (count_nl_nonneg t) as Nt.
    apply IH in S as (b2 & st2 & s2 & E & S2).
    + exists b2, st2, s2. unfold texts in *. cbn [map concat fst snd]. rewrite count_nl_app, Z.add_assoc. done.
    + destruct B; subst; try lia. inversion Hs as [|? ? P ?]; subst. cbn in P. lia.
    + assert (M : Forall (fun p : ascii * Z => (0 <= snd p <= n + count_nl t)%Z) st) by (eapply Forall_impl; [exact Hs|]; intros p; cbn; lia).
      destruct B; subst; try done.
      * constructor; [cbn in *; lia|done].
      * constructor; [cbn in *; lia|done].
      * by inversion M.
Qed.

(** ** Go literals *)
Lemma go_body_quote b1 b2 : go_body (b1 ++ c_dq :: b2) -> last b1 = Some c_bs.
Proof.
  intros H. remember (b1 ++ c_dq :: b2) as b eqn:E. revert b1 E. induction H as [|c b N1 N2 H IH|c b H IH]; intros b1 E.
  - by destruct b1.
  - destruct b1 as [|x b1]; injection E as E1 E2; [done|]. apply IH in E2. destruct b1; [done|]. exact E2.
  - destruct b1 as [|x [|y b1]].
    + discriminate E.
    + injection E as <- _. reflexivity.
    + injection E as E1 E2 E3. apply IH in E3. destruct b1; [done|]. exact E3.
Qed.
Lemma prefix_shorter {A} (u s t : list A) : u `prefix_of` s -> t `prefix_of` s -> ~ length t <= length u -> exists k, k <> [] /\ t = u ++ k.
Proof.
  intros Pu Pt L. destruct (prefix_weak_total u t s Pu Pt) as [[k ->]|[k ->]].
  - exists k. split; [|done]. intros ->. rewrite app_nil_r in L. lia.
  - rewrite app_length in L. lia.
Qed.
Lemma go_string_token b r : go_body b -> last b <> Some c_bs -> token ([c_dq] ++ b ++ [c_dq] ++ r) ([c_dq] ++ b ++ [c_dq]) KString r.
Proof.
  intros G L. replace ([c_dq] ++ b ++ [c_dq] ++ r) with (([c_dq] ++ b ++ [c_dq]) ++ r) by (by rewrite <- !app_assoc).
  apply (tk_delim DString); [done|]. split; [by apply prefix_app_r|]. split; [by exists b|].
  intros u Pu (b' & -> & L'). destruct (decide (length ([c_dq] ++ b ++ [c_dq]) <= length ([c_dq] ++ b' ++ [c_dq]))) as [|N]; [done|].
  exfalso. destruct (prefix_shorter _ _ ([c_dq] ++ b ++ [c_dq]) Pu ltac:(by apply prefix_app_r) N) as (k & NE & E).
  injection E as E. destruct k as [|x k] using rev_ind; [done|]. clear IHk. rewrite <- app_assoc, !app_assoc in E.
  apply app_inj_tail in E as [E _]. subst b. rewrite <- app_assoc in G. apply go_body_quote in G. done.
Qed.
Lemma kind_new_not s : kind_new s <> KComment.
Proof.
  intros E. apply class_kind_new in E. remember KComment as k eqn:Ek. destruct E as [E|k H|E|E|E|E|E|E E1|E E1 E2 E3 E4 E5 E6 E7]; try discriminate.
  apply reserved_elem in H as [H _].
  apply (lits _ (fun k => negb (kind_eqb k KComment))) in H; [|vm_compute; reflexivity].
  subst k. discriminate H.
Qed.
Lemma go_string_open b r k r' : r <> [] -> last b = Some c_bs -> ~ token ([c_dq] ++ b ++ [c_dq] ++ r) ([c_dq] ++ b ++ [c_dq]) k r'.
Proof.
  intros NE L T. apply token_inv in T as [(c & Hc & E & _)|[(d & O & T)|(N & _)]].
  - injection E as <- _. apply separators_facts in Hc. naive_solver.
  - assert (d = DString) as -> by (eapply opener_inj; [exact O|by exists (b ++ [c_dq] ++ r)]).
    destruct T as [(_ & (_ & (b' & E & L') & _) & _)|[(? & _)|(C & E & K)]]; [|done|].
    + injection E as E. apply app_inj_tail in E as [-> _]. done.
    + injection E as E. apply app_inv_head in E. injection E as E. done.
  - apply N. exists DString. by exists (b ++ [c_dq] ++ r).
Qed.
Lemma raw_string_token b r : c_bq ∉ b -> token ([c_bq] ++ b ++ [c_bq] ++ r) ([c_bq] ++ b ++ [c_bq]) KString r.
Proof.
  intros G. replace ([c_bq] ++ b ++ [c_bq] ++ r) with (([c_bq] ++ b ++ [c_bq]) ++ r) by (by rewrite <- !app_assoc).
  apply (tk_delim DRaw); [done|]. split; [by apply prefix_app_r|]. split; [by exists b|].
  intros u Pu (b' & ->). destruct (decide (length ([c_bq] ++ b ++ [c_bq]) <= length ([c_bq] ++ b' ++ [c_bq]))) as [|N]; [done|].
  exfalso. destruct (prefix_shorter _ _ ([c_bq] ++ b ++ [c_bq]) Pu ltac:(by apply prefix_app_r) N) as (k & NE & E).
  injection E as E. destruct k as [|x k] using rev_ind; [done|]. clear IHk. rewrite <- app_assoc, !app_assoc in E.
  apply app_inj_tail in E as [E _]. subst b. apply G. apply elem_of_app. left. apply elem_of_app. right. by left.
Qed.
Lemma line_comment_token b r : c_nl ∉ b -> token ($"//" ++ b ++ [c_nl] ++ r) ($"//" ++ b) KComment (c_nl :: r).
Proof.
  intros G. replace ($"//" ++ b ++ [c_nl] ++ r) with (($"//" ++ b) ++ c_nl :: r) by (by rewrite <- !app_assoc).
  apply tk_line. split; [exists r; by rewrite <- !app_assoc|]. split; [exists b; by rewrite <- app_assoc|].
  intros u Pu (b' & ->). destruct (decide (length (($"//" ++ b) ++ [c_nl]) <= length ($"//" ++ b' ++ [c_nl]))) as [|N]; [done|].
  exfalso. destruct (prefix_shorter _ _ (($"//" ++ b) ++ [c_nl]) Pu ltac:(exists r; by rewrite <- !app_assoc) N) as (k & NE & E).
  injection E as E. destruct k as [|x k] using rev_ind; [done|]. clear IHk. rewrite <- app_assoc, !app_assoc in E.
  apply app_inj_tail in E as [E _]. subst b. apply G. apply elem_of_app. left. apply elem_of_app. right. by left.
Qed.
Lemma block_comment_token b r : absent $"*/" b -> head b <> Some "/"%char ->
  token ($"/*" ++ b ++ $"*/" ++ r) ($"/*" ++ b ++ $"*/") KComment r.
Proof.
  intros G H. replace ($"/*" ++ b ++ $"*/" ++ r) with (($"/*" ++ b ++ $"*/") ++ r) by (by rewrite <- !app_assoc).
  apply (tk_delim DBlock); [done|]. split; [by apply prefix_app_r|]. split.
  { exists (b ++ ["*"%char]). split; [by rewrite <- !app_assoc|]. by rewrite app_comm_cons, last_snoc. }
  intros u Pu (b' & -> & L). destruct (decide (length ($"/*" ++ b ++ $"*/") <= length ($"/*" ++ b' ++ $"/"))) as [|N]; [done|].
  exfalso. destruct (prefix_shorter _ _ ($"/*" ++ b ++ $"*/") Pu ltac:(by apply prefix_app_r) N) as (k & NE & E).
  injection E as E. destruct k as [|x k] using rev_ind; [done|]. clear IHk.
  change ["*"%char; "/"%char] with (["*"%char] ++ ["/"%char]) in E. rewrite !app_assoc in E.
  apply app_inj_tail in E as [E _].
  destruct k as [|y k] using rev_ind.
  { rewrite app_nil_r in E. apply app_inj_tail in E as [_ E]. discriminate E. }
  clear IHk. rewrite !app_assoc in E. apply app_inj_tail in E as [E _].
  destruct b' as [|z b'] using rev_ind.
  - apply H. rewrite E. reflexivity.
  - clear IHb'. rewrite app_comm_cons, last_snoc in L. injection L as ->.
    apply (G b' k). rewrite E. by rewrite <- !app_assoc.
Qed.
Lemma block_comment_slash b r r' : absent $"*/" b -> head b = Some "/"%char -> 
  ~ token ($"/*" ++ b ++ $"*/" ++ r) ($"/*" ++ b ++ $"*/") KComment r'.
Proof.
  intros G H T. destruct b as [|x b]; [done|]. injection H as ->.
  apply token_inv in T as [(c & Hc & E & _)|[(d & O & T)|(N & _)]].
  - injection E as <- _. apply separators_facts in Hc. naive_solver.
  - assert (d = DBlock) as -> by (eapply opener_inj; [exact O|by exists ("/"%char :: b ++ $"*/" ++ r)]).
    destruct T as [(_ & (P & _ & M) & _)|[(? & _)|(C & E & K)]]; [|done|].
    + assert (X : length ($"/*" ++ ("/"%char :: b) ++ $"*/") <= length ($"/*/")).
      { apply M; [by exists (b ++ $"*/" ++ r)|]. by exists []. }
      rewrite !app_length in X. simpl in X. lia.
    + symmetry in K. by apply kind_new_not in K.
  - apply N. exists DBlock. by exists (("/"%char :: b) ++ $"*/" ++ r).
Qed.
(** The first token of a text. *)
Lemma scan_first n b st s ts t k r : scan n b st s ts -> token s t k r -> exists m ts', ts = (m, t, k) :: ts' /\ line_rule n b t m.
Proof.
  intros S T. inversion S as [|? ? ? ? t' k' r' m b' st' ts' T' L B S']; subst.
  - pose proof (token_text _ _ _ _ T) as E. apply token_nonempty in T. symmetry in E. by apply app_nil in E as [? _].
  - destruct (token_unique _ _ _ _ _ _ _ T T') as (-> & -> & ->). eauto.
Qed.
