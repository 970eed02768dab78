(** The tokeniser meets its specification. *)
From Verif Require Export ExtractHeap LexSpecProofs.

(** ** The opener table *)
Definition ext_key (e : ext) : str :=
  match e with EParen => $"(" | ECurly => $"{" | EComment => $"//" | EInner => $"/*" | EString => [c_dq] | EMulti => [c_bq] | ECommon => [] end.
Lemma table_ascii : forall k e, (k, e) ∈ deeper_table -> Forall ascii_byte k /\ k = ext_key e /\ k <> [].
Proof.
  intros k e H. unfold deeper_table in H.
  repeat (apply elem_of_cons in H as [[= -> ->]|H]; [split_and!; [repeat constructor|reflexivity|done]|]). by apply elem_of_nil in H.
Qed.
Lemma keys_unique s e e' : e <> ECommon -> e' <> ECommon -> ext_key e `prefix_of` s -> ext_key e' `prefix_of` s -> e = e'.
Proof. intros N N' [k ->] [k' E]. destruct e, e'; try done; discriminate E. Qed.
Lemma prefix_fit_spec l s e : (forall p, p ∈ l <-> p ∈ deeper_table) ->
  prefix_fit_in s l = Some e <-> e <> ECommon /\ ext_key e `prefix_of` s.
Proof.
  intros T.
  assert (G : forall l, (forall p, p ∈ l -> p ∈ deeper_table) ->
     (forall e, prefix_fit_in s l = Some e -> e <> ECommon /\ ext_key e `prefix_of` s) /\
     (forall e, (ext_key e, e) ∈ l -> ext_key e `prefix_of` s -> prefix_fit_in s l = Some e)).
  { clear l T e. induction l as [|[k v] l IH]; intros T.
    - split; [done|]. by intros e H%elem_of_nil.
    - destruct IH as [I1 I2]; [intros; apply T; by right|]. cbn [prefix_fit_in].
      destruct (table_ascii k v) as (A & E & NE); [apply T; by left|].
      destruct (has_prefix s k) eqn:P.
      + apply has_prefix_spec in P; [|done]. split.
        * intros e [= <-]. split; [|by rewrite <- E]. intros ->. by rewrite E in NE.
        * intros e Hin He. f_equal. rewrite E in P.
          assert (Ne : e <> ECommon).
          { intros ->. apply T in Hin. apply table_ascii in Hin as (_ & _ & ?). done. }
          assert (Nv : v <> ECommon) by (intros ->; by rewrite E in NE).
          by eapply keys_unique.
      + split; [exact I1|]. intros e [H|H]%elem_of_cons Pe; [|by apply I2].
        injection H as E1 E2. subst v. rewrite E1 in Pe. apply (has_prefix_spec s k A) in Pe. congruence. }
  destruct (G l) as [G1 G2]; [intros p; apply T|]. split; [apply G1|].
  intros [N P]. apply G2; [|done]. apply T. unfold deeper_table. destruct e; try done; rewrite !elem_of_cons; cbn [ext_key]; tauto.
Qed.
Lemma prefix_fit_none l s : (forall p, p ∈ l <-> p ∈ deeper_table) ->
  prefix_fit_in s l = None -> forall e, e <> ECommon -> ~ ext_key e `prefix_of` s.
Proof. intros T H e N P. assert (E : prefix_fit_in s l = Some e) by (by apply prefix_fit_spec). congruence. Qed.

(** Tokenising does not depend on the order in which the map is searched. *)
Lemma prefix_fit_ext l l' s : (forall p, p ∈ l <-> p ∈ deeper_table) -> (forall p, p ∈ l' <-> p ∈ deeper_table) ->
  prefix_fit_in s l = prefix_fit_in s l'.
Proof.
  intros T T'. destruct (prefix_fit_in s l) as [e|] eqn:E; symmetry.
  - apply (prefix_fit_spec l' s e T'). by apply (prefix_fit_spec l s e T).
  - destruct (prefix_fit_in s l') as [e|] eqn:E'; [|done].
    apply (prefix_fit_spec l' s e T') in E' as [N P]. by destruct (prefix_fit_none l s T E e N).
Qed.
Lemma run_order f : forall ord ord' text e x lc,
  (forall i p, p ∈ ord i <-> p ∈ deeper_table) -> (forall i p, p ∈ ord' i <-> p ∈ deeper_table) ->
  run f ord text e x lc = run f ord' text e x lc.
Proof.
  induction f as [|f IH]; intros ord ord' text e x lc T T'; [done|].
  cbn [run]. destruct (text !! x_i x) as [c|]; [|done].
  assert (E : prefix_fit (deeper (ord (x_i x)) e) (drop (x_i x) text) = prefix_fit (deeper (ord' (x_i x)) e) (drop (x_i x) text)).
  { unfold deeper. destruct e; cbn [prefix_fit]; try done; by apply prefix_fit_ext. }
  rewrite E. clear E. generalize (prefix_fit (deeper (ord' (x_i x)) e) (drop (x_i x) text)). intros [ee|].
  - destruct (push_node x lc true []) as [[x1 lc1]| |]; [|reflexivity..]. cbn [res_bind].
    destruct (if e_open _ then _ else _) as [[x2 lc2]| |]; [|reflexivity..]. cbn [res_bind].
    rewrite (IH ord ord') by done. destruct (run f ord' text ee _ _) as [[x3 ns]| |]; [|reflexivity..]. cbn [res_bind].
    destruct (insert_node x3 lc2 ns) as [[x4 lc4]| |]; [|reflexivity..]. cbn [res_bind]. by apply IH.
  - destruct (_ && _); [by apply IH|]. destruct (_ && _); [done|]. destruct (contain _ _); [|by apply IH].
    destruct (push_node x lc true []) as [[x1 lc1]| |]; [|reflexivity..]. cbn [res_bind].
    destruct (insert_new _ _ _ _ _) as [[x2 lc2]| |]; [|reflexivity..]. cbn [res_bind]. by apply IH.
Qed.

(** ** Delimited tokens *)
#[global] Instance delim_eq_dec : EqDecision delim.
Proof. solve_decision. Defined.
Definition dext (d : delim) : ext := match d with DString => EString | DRaw => EMulti | DBlock => EInner | DLine => EComment end.
Lemma ext_key_opener d : ext_key (dext d) = opener d. Proof. by destruct d. Qed.

(** The run of a delimiter's extractor stops after [u ++ [c]]. *)
Definition stopb (d : delim) (u : str) (c : ascii) : bool :=
  match d with
  | DString => bool_decide (c = c_dq) && negb (bool_decide (last u = Some c_bs))
  | DRaw => bool_decide (c = c_bq)
  | DBlock => bool_decide (c = "/"%char) && bool_decide (last u = Some "*"%char)
  | DLine => bool_decide (c = c_nl)
  end.
Lemma suffix1 (p : str) c a : [a] `suffix_of` p ++ [c] <-> c = a.
Proof.
  split.
  - intros [k E]. by apply app_inj_tail in E as [_ ->].
  - intros ->. by exists p.
Qed.
Lemma suffix2 (p : str) u c a b : u <> [] -> [a; b] `suffix_of` (p ++ u) ++ [c] <-> c = b /\ last u = Some a.
Proof.
  intros NE. split.
  - intros [k E]. change [a; b] with ([a] ++ [b]) in E. rewrite app_assoc in E. apply app_inj_tail in E as [E ->]. split; [done|].
    assert (L : last (p ++ u) = Some a) by (rewrite E; by rewrite last_snoc).
    rewrite last_app in L. destruct (last u) eqn:Lu; [done|]. by apply last_None in Lu.
  - intros [-> L]. apply last_Some in L as [u' ->]. exists (p ++ u'). by rewrite <- !app_assoc.
Qed.
Lemma nonempty_len {A} (l : list A) : negb (Nat.eqb (length l) 0) = match l with [] => false | _ => true end.
Proof. by destruct l. Qed.
Lemma bool_eq_iff (b b' : bool) : (b = true <-> b' = true) -> b = b'.
Proof. destruct b, b'; intuition congruence. Qed.
Lemma stop_flags d p u c : u <> [] ->
  let tr := (p ++ u) ++ [c] in let e := dext d in
  let skip := negb (Nat.eqb (length (e_skip (xconf e))) 0) && has_suffix tr (e_skip (xconf e)) in
  let ret := negb (Nat.eqb (length (e_ret (xconf e))) 0) && has_suffix tr (e_ret (xconf e)) in
  (if skip then false else ret) = stopb d u c.
Proof.
  intros NE. destruct d; cbn [dext xconf e_skip e_ret stopb]; change $"*/" with ["*"%char; "/"%char]; cbn [length Nat.eqb negb andb].
  - assert (E1 : has_suffix ((p ++ u) ++ [c]) [c_bs; c_dq] = bool_decide (c = c_dq) && bool_decide (last u = Some c_bs)).
    { apply bool_eq_iff. rewrite has_suffix_spec, suffix2, andb_true_iff, !bool_decide_eq_true by done. done. }
    assert (E2 : has_suffix ((p ++ u) ++ [c]) [c_dq] = bool_decide (c = c_dq)).
    { apply bool_eq_iff. rewrite has_suffix_spec, suffix1, bool_decide_eq_true. done. }
    rewrite E1, E2. destruct (bool_decide (c = c_dq)), (bool_decide (last u = Some c_bs)); done.
  - apply bool_eq_iff. rewrite has_suffix_spec, suffix1, bool_decide_eq_true. done.
  - apply bool_eq_iff. rewrite has_suffix_spec, suffix2, andb_true_iff, !bool_decide_eq_true by done. done.
  - apply bool_eq_iff. rewrite has_suffix_spec, suffix1, bool_decide_eq_true. done.
Qed.
(** ... which is where the token is complete. *)
Lemma last_cons_ne {A} (a : A) l : l <> [] -> last (a :: l) = last l.
Proof. by destruct l. Qed.
Lemma stopb_closed d u c r : u <> [] -> opener d `prefix_of` u ++ c :: r -> stopb d u c = true <-> closed d (u ++ [c]).
Proof.
  intros NE O. destruct d; cbn [stopb closed opener] in *.
  - destruct u as [|a b]; [done|]. destruct O as [k [= -> E]]. rewrite andb_true_iff, negb_true_iff, bool_decide_eq_true, bool_decide_eq_false.
    split.
    + intros [-> L]. exists b. split; [done|]. intros Lb. apply L. destruct b; [done|]. by rewrite last_cons_ne.
    + intros (b' & E' & L). injection E' as E'. apply app_inj_tail in E' as [-> ->]. split; [done|].
      destruct b'; [done|]. by rewrite last_cons_ne.
  - destruct u as [|a b]; [done|]. destruct O as [k [= -> E]]. rewrite bool_decide_eq_true. split.
    + intros ->. by exists b.
    + intros (b' & E'). injection E' as E'. by apply app_inj_tail in E' as [-> ->].
  - destruct u as [|a [|a' b]]; [done|..].
    + destruct O as [k [= -> -> E]]. split; [by rewrite andb_true_iff, bool_decide_eq_true; intros [_ ?]|].
      intros (b' & E' & L). destruct b' as [|? b']; [discriminate E'|]. by destruct b'.
    + destruct O as [k [= -> -> E]]. rewrite andb_true_iff, !bool_decide_eq_true. rewrite last_cons_ne by done. split.
      * intros [-> L]. by exists b.
      * intros (b' & E' & L). injection E' as E'. apply app_inj_tail in E' as [-> ->]. done.
  - destruct u as [|a [|a' b]]; [done|..].
    + destruct O as [k [= -> -> E]]. rewrite bool_decide_eq_true. split; [done|].
      intros (b' & E'). destruct b' as [|? b']; [discriminate E'|]. by destruct b'.
    + destruct O as [k [= -> -> E]]. rewrite bool_decide_eq_true. split.
      * intros ->. by exists b.
      * intros (b' & E'). injection E' as E'. by apply app_inj_tail in E' as [-> ->].
Qed.

(** The tokens produced when the extractor of [d] stops at [c]. *)
Definition dtoks (d : delim) (t : str) (c : ascii) (line bl : Z) : list tok :=
  match d with
  | DLine => [(line, t, KComment); (line, [c], kind_new [c])]
  | _ => [(bl, t ++ [c], dkind d)]
  end.
Definition lstep (c : ascii) (line : Z) : Z := (if bool_decide (c = c_nl) then line + 1 else line)%Z.
Lemma lstep_count c line : lstep c line = (line + count_nl [c])%Z.
Proof. unfold lstep. rewrite count_nl_cons. case_bool_decide; unfold count_nl; simpl; lia. Qed.

Lemma drop_mid (a : str) c r : drop (length a) (a ++ c :: r) = c :: r.
Proof. by rewrite drop_app. Qed.
Lemma take_mid (a : str) c r : take (S (length a)) (a ++ c :: r) = a ++ [c].
Proof. change (c :: r) with ([c] ++ r). rewrite app_assoc. rewrite take_app_alt; [done|]. rewrite app_length. simpl. lia. Qed.

Lemma trun_delim f ord d p u c r line bl : u <> [] ->
  trun (S f) ord ((p ++ u) ++ c :: r) (dext d) u (length (p ++ u)) line bl =
  if stopb d u c then Some (dtoks d u c line bl, length (p ++ u), lstep c line)
  else trun f ord ((p ++ u) ++ c :: r) (dext d) (u ++ [c]) (S (length (p ++ u))) (lstep c line) bl.
Proof.
  intros NE. cbn [trun]. rewrite list_lookup_middle by done.
  replace (prefix_fit (deeper (ord (length (p ++ u))) (dext d)) (drop (length (p ++ u)) ((p ++ u) ++ c :: r))) with (@None ext) by (by destruct d).
  rewrite take_mid. pose proof (stop_flags d p u c NE) as S. cbv zeta in S. rewrite <- S.
  destruct (negb _ && has_suffix _ (e_skip _)); [done|].
  destruct (negb _ && has_suffix _ (e_ret _)) eqn:R.
  - f_equal. f_equal. f_equal.
    destruct d; cbn [dext xconf e_close dtoks ext_kinds]; try (destruct u; [done|]; reflexivity).
    (* a line comment ends with a newline *)
    symmetry in S. cbn [stopb] in S. apply bool_decide_eq_true in S as ->.
    destruct u; [done|]. reflexivity.
  - by destruct d.
Qed.

Lemma no_closed_snoc d u c r : u <> [] -> opener d `prefix_of` u ++ c :: r -> stopb d u c = false ->
  (forall t, t `prefix_of` u -> ~ closed d t) -> forall t, t `prefix_of` u ++ [c] -> ~ closed d t.
Proof.
  intros NE O S H t [k E]. destruct k as [|k0 k] using rev_ind.
  - rewrite app_nil_r in E. subst t. intros C. apply (stopb_closed d u c r NE O) in C. congruence.
  - clear IHk. rewrite app_assoc in E. apply app_inj_tail in E as [E _]. apply H. by exists k.
Qed.

Lemma delim_run ord d r : forall f p u line bl, u <> [] -> opener d `prefix_of` u ++ r -> length r < f ->
  (forall t, t `prefix_of` u -> ~ closed d t) ->
  (exists v c r', r = v ++ c :: r' /\ shortest (closed d) (u ++ r) ((u ++ v) ++ [c]) /\
     trun f ord ((p ++ u) ++ r) (dext d) u (length (p ++ u)) line bl =
       Some (dtoks d (u ++ v) c (line + count_nl v) bl, length ((p ++ u) ++ v), (line + count_nl (v ++ [c]))%Z)) \/
  ((forall t, t `prefix_of` u ++ r -> ~ closed d t) /\
     trun f ord ((p ++ u) ++ r) (dext d) u (length (p ++ u)) line bl =
       Some ([((line + count_nl r)%Z, u ++ r, kind_new (u ++ r))], length ((p ++ u) ++ r), (line + count_nl r)%Z)).
Proof.
  induction r as [|c r IH]; intros f p u line bl NE O F H.
  - right. rewrite !app_nil_r. split; [done|]. destruct f as [|f]; [simpl in F; lia|]. cbn [trun].
    rewrite lookup_ge_None_2 by lia. unfold count_nl. cbn. rewrite Z.add_0_r. unfold tpush. by destruct u.
  - destruct f as [|f]; [simpl in F; lia|]. rewrite trun_delim by done.
    destruct (stopb d u c) eqn:S.
    + left. exists [], c, r. cbn [app]. rewrite !app_nil_r. split; [done|]. split.
      * split; [exists r; by rewrite <- app_assoc|]. split; [by apply (stopb_closed d u c r NE O)|].
        intros t Pt Ct. destruct (decide (length (u ++ [c]) <= length t)) as [|L]; [done|]. exfalso.
        apply (H t); [|done]. apply (prefix_weak_total t u) in Pt; [|by exists (c :: r)].
        destruct Pt as [|Pt]; [done|]. assert (t = u) as -> by (apply prefix_length in Pt as L'; rewrite app_length in L; simpl in L; destruct Pt as [k ->]; rewrite app_length in *; destruct k; [by rewrite app_nil_r|simpl in *; lia]). done.
      * rewrite lstep_count. unfold count_nl at 2. cbn. rewrite Z.add_0_r. done.
    + assert (NE' : u ++ [c] <> []) by (by destruct u).
      assert (O' : opener d `prefix_of` (u ++ [c]) ++ r) by (by rewrite <- app_assoc).
      assert (F' : length r < f) by (simpl in F; lia).
      specialize (IH f p (u ++ [c]) (lstep c line) bl NE' O' F' (no_closed_snoc d u c r NE O S H)).
      assert (E1 : (p ++ u ++ [c]) ++ r = (p ++ u) ++ c :: r) by (by rewrite <- !app_assoc).
      assert (E2 : length (p ++ u ++ [c]) = Datatypes.S (length (p ++ u))) by (rewrite !app_length; simpl; lia).
      assert (E3 : (u ++ [c]) ++ r = u ++ c :: r) by (by rewrite <- app_assoc).
      rewrite E1, E2, E3, lstep_count in IH. destruct IH as [(v & c' & r' & -> & Sh & T)|[N T]].
      * left. exists (c :: v), c', r'. split; [done|]. split; [by rewrite <- !app_assoc in *|].
        rewrite lstep_count, T. change ((c :: v) ++ [c']) with ([c] ++ (v ++ [c'])). change (c :: v) with ([c] ++ v).
        rewrite !(count_nl_app [c]), !Z.add_assoc. rewrite <- !app_assoc. reflexivity.
      * right. split; [done|]. rewrite lstep_count, T. change (c :: r) with ([c] ++ r). rewrite (count_nl_app [c]), !Z.add_assoc.
        rewrite <- ?app_assoc. reflexivity.
Qed.

Lemma closed_len d t : closed d t -> 2 <= length t.
Proof.
  destruct d; intros [b H]; [destruct H as [-> _]|subst t|destruct H as [-> _]|subst t]; rewrite ?app_length; simpl; rewrite ?app_length; simpl; lia.
Qed.
Lemma closed_not_cut d t : closed d t -> ~ exists d', cut_off d' t.
Proof.
  intros C [d' [O N]]. pose proof (opener_inj _ _ _ (closed_opener _ _ C) O) as <-. by apply (N t).
Qed.
Lemma opener_no_nl d c s : opener d `prefix_of` c :: s -> c <> c_nl /\ c <> "("%char /\ c <> "{"%char.
Proof. intros [k E]. destruct d; injection E as -> _; done. Qed.
Lemma shortest_line s t x : shortest (closed DLine) s (t ++ [x]) -> x = c_nl /\ c_nl ∉ t.
Proof.
  intros (P & [b C] & M). rewrite app_assoc in C. apply app_inj_tail in C as [-> ->]. split; [done|]. intros I.
  apply elem_of_app in I as [I|I].
  { apply (bool_decide_eq_true (c_nl ∈ _)) in I. vm_compute in I. discriminate I. }
  apply elem_of_list_split in I as (b1 & b2 & ->).
  assert (L : length (($"//" ++ b1 ++ c_nl :: b2) ++ [c_nl]) <= length ($"//" ++ b1 ++ [c_nl])).
  { apply M; [|by exists b1]. destruct P as [k ->]. exists (b2 ++ [c_nl] ++ k). by rewrite <- !app_assoc. }
  rewrite !app_length in L. simpl in L. lia.
Qed.

(** ** Code between them *)
Definition code (e : ext) : Prop := e = ECommon \/ e = EParen \/ e = ECurly.
Definition word_ok (w s : str) : Prop :=
  forall w1 c w2, w = w1 ++ c :: w2 -> c ∉ separators /\ ~ opens (c :: w2 ++ s).
Definition boundary (s : str) : Prop := s = [] \/ opens s \/ exists c, head s = Some c /\ c ∈ separators.

Lemma word_not_cut w r : w <> [] -> word_ok w r -> ~ exists d, cut_off d w.
Proof.
  intros NE H [d [O _]]. apply (word_no_open w r NE H). exists d. by apply prefix_app_r.
Qed.
Lemma nl_sep : c_nl ∈ separators.
Proof. apply (bool_decide_eq_true (c_nl ∈ separators)). vm_compute. reflexivity. Qed.
Lemma word_lines w r : word_ok w r -> count_nl w = 0%Z.
Proof.
  intros H. apply count_nl_none. intros I. apply elem_of_list_split in I as (w1 & w2 & ->).
  destruct (H w1 c_nl w2 eq_refl) as [N _]. apply N, nl_sep.
Qed.
Lemma lparen_sep : "("%char ∈ separators /\ "{"%char ∈ separators.
Proof. split; [apply (bool_decide_eq_true ("("%char ∈ separators))|apply (bool_decide_eq_true ("{"%char ∈ separators))]; vm_compute; reflexivity. Qed.

Lemma push_word w s n b st ts : word_ok w s -> boundary s -> scan n (match w with [] => b | _ => n end) st s ts ->
  scan n b st (w ++ s) (tpush w n [] ++ ts).
Proof.
  intros W B S. destruct w as [|c w]; [done|]. unfold tpush. cbn [app].
  econstructor; [by apply (tk_word (c :: w) s)| | |].
  - split_and!.
    + intros C. by destruct (word_not_cut (c :: w) s ltac:(done) W).
    + destruct (W [] c w eq_refl) as [N _]. destruct lparen_sep as [L1 L2]. intros [[= -> ->]|[= -> ->]]; done.
    + done.
  - apply bs_word. split.
    + intros [d O]. apply (word_no_open (c :: w) s ltac:(done) W). exists d. by apply prefix_app_r.
    + intros c' [= <- ->]. by destruct (W [] c [] eq_refl).
  - by rewrite (word_lines (c :: w) s W), Z.add_0_r.
Qed.

Lemma contain_sep c : contain SeparatorCharset c = bool_decide (c ∈ separators).
Proof. unfold SeparatorCharset. rewrite contain_new. done. Qed.
Lemma string_of_ascii c : ascii_byte c -> string_of_byte c = [c].
Proof. unfold ascii_byte, string_of_byte. intros H. destruct (N.ltb_spec (N_of_ascii c) 128); [done|lia]. Qed.
Lemma sep_string c : c ∈ separators -> string_of_byte c = [c].
Proof. intros H. apply string_of_ascii. by apply separators_facts in H as [? _]. Qed.
Lemma sep_not_cut c : c ∈ separators -> ~ exists d, cut_off d [c].
Proof. intros H [d [O _]]. apply (sep_no_open c [] H). by exists d. Qed.
Lemma sep_no_word c : c ∈ separators -> ~ is_word [c].
Proof. intros H [_ N]. by apply (N c). Qed.
Lemma sep_line c n b : c ∈ separators -> line_rule n b [c] (if bool_decide (c = "("%char \/ c = "{"%char) then b else n).
Proof.
  intros H. split_and!.
  - intros C. by destruct (sep_not_cut c H).
  - intros E. rewrite bool_decide_eq_true_2; [done|]. destruct E as [[= ->]|[= ->]]; tauto.
  - intros _ N1 N2. rewrite bool_decide_eq_false_2; [done|]. intros [-> | ->]; [by apply N1|by apply N2].
Qed.
(** What the frame of each bracket extractor looks like in the specification. *)
Definition frame (e : ext) (st : brackets) (b' : Z) (st' : brackets) : Prop :=
  match e with
  | ECommon => st = []
  | EParen => st = (")"%char, b') :: st'
  | ECurly => st = ("}"%char, b') :: st'
  | _ => False
  end.
Lemma frame_code e st b' st' : frame e st b' st' -> code e.
Proof. unfold code. destruct e; cbn; try done; tauto. Qed.
Lemma frame_closer e st b0 st0 c b' st' : frame e st b0 st0 -> st = (c, b') :: st' ->
  (c = ")"%char \/ c = "}"%char) /\ e_ret (xconf e) = [c] /\ b' = b0 /\ st' = st0.
Proof. intros F ->. destruct e; cbn in *; try done; injection F as -> -> ->; split_and!; try done; tauto. Qed.

Lemma scan_sep c s n b st ts : c ∈ separators -> c <> "("%char -> c <> "{"%char ->
  (forall b' st', st <> (c, b') :: st') ->
  scan (lstep c n) b st s ts -> scan n b st (c :: s) ((n, [c], kind_new [c]) :: ts).
Proof.
  intros H N1 N2 N3 S. econstructor; [by apply tk_separator| | |by rewrite <- lstep_count].
  - pose proof (sep_line c n b H) as G. by rewrite bool_decide_eq_false_2 in G by (intros [?|?]; done).
  - apply bs_other; [by apply sep_no_word|intros [= ?]; done..|]. intros c' b' st' E [= <-]. by apply N3 in E.
Qed.
Lemma scan_close c s n b b' st ts : c ∈ separators -> c <> "("%char -> c <> "{"%char ->
  scan (lstep c n) b' st s ts -> scan n b ((c, b') :: st) (c :: s) ((n, [c], kind_new [c]) :: ts).
Proof.
  intros H N1 N2 S. econstructor; [by apply tk_separator| | |by rewrite <- lstep_count].
  - pose proof (sep_line c n b H) as G. by rewrite bool_decide_eq_false_2 in G by (intros [?|?]; done).
  - by eapply bs_close.
Qed.
Lemma scan_open e c s n b st ts : (c = "("%char /\ e = EParen) \/ (c = "{"%char /\ e = ECurly) ->
  (forall st1, frame e st1 b st -> scan n n st1 s ts) -> scan n b st (c :: s) ((b, [c], kind_new [c]) :: ts).
Proof.
  intros E S. assert (H : c ∈ separators) by (destruct lparen_sep; destruct E as [[-> _]|[-> _]]; done).
  pose proof (sep_line c n b H) as G. rewrite bool_decide_eq_true_2 in G by tauto.
  destruct E as [[-> ->]|[-> ->]]; (econstructor; [by apply tk_separator|exact G|constructor|]);
    rewrite <- lstep_count; unfold lstep; (rewrite bool_decide_eq_false_2 by done); by apply S.
Qed.
(** Strings and comments leave the bracket state alone. *)
Lemma bracket_delim d t n b st : opener d `prefix_of` t -> closers st -> bracket_step n b st t b st.
Proof.
  intros O C. pose proof (opener_head _ _ O) as (c & r & -> & Hc). apply bs_other.
  - intros [N _]. apply N. by exists d.
  - intros [= -> _]. naive_solver.
  - intros [= -> _]. naive_solver.
  - intros c' b' st' -> [= <- _]. inversion C as [|? ? D ?]; subst. cbn in D. naive_solver.
Qed.
Lemma frame_closers e st b' st' : frame e st b' st' -> closers st' -> closers st.
Proof. destruct e; cbn; try done; intros -> C; constructor; cbn; tauto || done. Qed.
Lemma drop_cons_lookup (text : str) i c : text !! i = Some c -> drop i text = c :: drop (S i) text.
Proof. intros E. by rewrite (drop_S _ c). Qed.

Section order.
Context (ord : nat -> list (str * ext)) (Hord : forall i p, p ∈ ord i <-> p ∈ deeper_table).

Lemma prefix_code i e s : code e -> prefix_fit (deeper (ord i) e) s = prefix_fit_in s (ord i).
Proof. by intros [->|[->| ->]]. Qed.

Lemma code_run text : forall f e i w line bl st b0 st0, frame e st b0 st0 -> closers st0 -> length text - i < f ->
  word_ok w (drop i text) ->
  exists toks i' line', trun f ord text e w i line bl = Some (toks, i', line') /\ i <= i' /\
    (e = ECommon -> length text <= i') /\
    forall ts, scan line' b0 st0 (drop (S i') text) ts -> scan line bl st (w ++ drop i text) (toks ++ ts).
Proof.
  induction f as [|f IH]; intros e i w line bl st b0 st0 Fr Cl F W; [lia|].
  pose proof (frame_code _ _ _ _ Fr) as Ce. pose proof (frame_closers _ _ _ _ Fr Cl) as Cl'.
  cbn [trun]. destruct (text !! i) as [c|] eqn:Ec.
  2:{ apply lookup_ge_None in Ec. eexists _, _, _. split; [reflexivity|]. split_and!; [lia|lia|].
      intros ts. rewrite !drop_ge by lia. intros S. apply push_word; [by rewrite drop_ge in W by lia|by left|].
      rewrite (scan_nil_inv _ _ _ _ S). constructor. }
  pose proof (lookup_lt_Some _ _ _ Ec) as Li. pose proof (drop_cons_lookup _ _ _ Ec) as Ed.
  rewrite (prefix_code i e _ Ce).
  set (bl' := match w with [] => bl | _ => line end).
  destruct (prefix_fit_in (drop i text) (ord i)) as [ee|] eqn:PF.
  - apply (prefix_fit_spec _ _ _ (Hord i)) in PF as [NC PK].
    assert (After : forall i3 l3, i < S i3 ->
      exists toks i' line', trun f ord text e [] (S i3) l3 bl' = Some (toks, i', line') /\ S i3 <= i' /\ (e = ECommon -> length text <= i') /\
        forall ts, scan line' b0 st0 (drop (S i') text) ts -> scan l3 bl' st (drop (S i3) text) (toks ++ ts)).
    { intros i3 l3 L3. apply (IH e (S i3) [] l3 bl' st b0 st0 Fr Cl); [lia|]. intros w1 c' w2 E. by destruct w1. }
    destruct (decide (ee = EParen \/ ee = ECurly)) as [Ep|Np].
    + (* ( and { *)
      assert (Op : e_open (xconf ee) = false) by (by destruct Ep as [->| ->]).
      assert (Hc : (c = "("%char /\ ee = EParen) \/ (c = "{"%char /\ ee = ECurly)).
      { rewrite Ed in PK. destruct Ep as [->| ->]; destruct PK as [k [= -> E]]; tauto. }
      assert (Hsep : c ∈ separators) by (destruct lparen_sep; destruct Hc as [[-> _]|[-> _]]; done).
      assert (exists st1, frame ee st1 bl' st) as [st1 Fr1].
      { destruct Ep as [->| ->]; eexists; cbn; reflexivity. }
      rewrite Op.
      destruct (IH ee (S i) [] line line st1 bl' st Fr1 Cl') as (t3 & i3 & l3 & -> & L3 & _ & S3); [lia|intros w1 c' w2 E; by destruct w1|].
      destruct (After i3 l3) as (t4 & i4 & l4 & -> & L4 & M4 & S4); [lia|].
      eexists _, _, _. split; [reflexivity|]. split_and!; [lia|done|]. intros ts S.
      rewrite Ed. rewrite <- !app_assoc. apply push_word.
      * by rewrite <- Ed.
      * right. right. by exists c.
      * rewrite (sep_string c Hsep). cbn [app]. fold bl'. apply (scan_open ee); [done|].
        intros st2 Fr2. assert (st2 = st1) as -> by (destruct Ep as [->| ->]; cbn in Fr1, Fr2; congruence).
        apply S3. by apply S4.
    + (* strings and comments *)
      assert (exists d, ee = dext d) as [d ->].
      { destruct ee; try tauto; [by exists DLine|by exists DBlock|by exists DString|by exists DRaw]. }
      rewrite ext_key_opener in PK.
      assert (Op : e_open (xconf (dext d)) = true) by (by destruct d). rewrite Op. clear Op.
      set (rest := drop (S i) text).
      assert (Et : text = (take i text ++ [c]) ++ rest).
      { rewrite <- app_assoc. cbn [app]. unfold rest. rewrite <- Ed. by rewrite take_drop. }
      assert (El : length (take i text ++ [c]) = S i) by (rewrite app_length, take_length; simpl; lia).
      assert (B0 : boundary (drop i text)) by (right; left; by exists d).
      destruct (delim_run ord d rest f (take i text) [c] line line) as [(v & c' & r' & Er & Sh & T)|[N T]].
      { done. } { cbn [app]. unfold rest. by rewrite <- Ed. } { unfold rest. rewrite drop_length. lia. }
      { intros t P C. apply closed_len in C. apply prefix_length in P. simpl in P. lia. }
      * rewrite <- Et, El in T. rewrite T. clear T.
        assert (Ei : length ((take i text ++ [c]) ++ v) = S i + length v) by (rewrite app_length, El; lia).
        rewrite Ei.
        assert (Dr : drop (S (S i + length v)) text = r').
        { transitivity (drop (S (S i + length v)) ((((take i text ++ [c]) ++ v) ++ [c']) ++ r')).
          - f_equal. rewrite Et at 1. rewrite Er. by rewrite <- !app_assoc.
          - apply drop_app_alt. rewrite app_length, Ei. simpl. lia. }
        set (l3 := (line + count_nl (v ++ [c']))%Z) in *.
        pose proof (count_nl_nonneg (v ++ [c'])) as NN.
        destruct (After (S i + length v) l3) as (t4 & i4 & l4 & -> & L4 & M4 & S4); [lia|].
        rewrite Dr in S4.
        eexists _, _, _. split; [reflexivity|]. split_and!; [lia|done|]. intros ts S.
        rewrite <- !app_assoc. apply push_word; [done|done|]. cbn [app].
        assert (Ed' : drop i text = (c :: v) ++ c' :: r') by (rewrite Ed; fold rest; by rewrite Er).
        rewrite Ed'. rewrite Er in Sh. cbn [app] in Sh.
        assert (PK' : opener d `prefix_of` c :: v ++ c' :: r') by (by rewrite Ed' in PK).
        destruct (opener_no_nl _ _ _ PK') as (N1 & N2 & N3).
        assert (NL : count_nl (c :: v ++ [c']) = count_nl (v ++ [c'])) by (rewrite count_nl_cons, bool_decide_eq_false_2 by done; done).
        apply S4 in S. destruct (decide (d = DLine)) as [->|ND].
        -- pose proof (shortest_line _ (c :: v) c' Sh) as [-> NV].
           assert (CV : count_nl v = 0%Z) by (apply count_nl_none; intros I; apply NV; by right).
           cbn [dtoks app]. rewrite CV, Z.add_0_r.
           econstructor; [by apply (tk_line (c :: v) r')| | |].
           ++ assert (C0 : count_nl (c :: v) = 0%Z) by (by apply count_nl_none).
              split_and!; [intros _; rewrite C0; lia|intros [[= -> ->]|[= -> ->]]; done|done].
           ++ fold bl'. eapply (bracket_delim DLine); [|done]. destruct Sh as (_ & [bb Eb] & _).
              rewrite app_assoc in Eb. change (c :: v ++ [c_nl]) with ((c :: v) ++ [c_nl]) in Eb. apply app_inj_tail in Eb as [-> _]. by apply prefix_app_r.
           ++ assert (C0 : count_nl (c :: v) = 0%Z) by (by apply count_nl_none). rewrite C0, Z.add_0_r.
              apply scan_sep; [apply nl_sep|done|done| |].
              { intros b' st' E. by destruct (frame_closer _ _ _ _ _ _ _ Fr E) as [[?|?] _]. }
              replace (lstep c_nl line) with l3; [exact S|]. unfold l3. rewrite lstep_count, count_nl_app, CV. lia.
        -- assert (Dt : dtoks d (c :: v) c' (line + count_nl v) line = [(line, (c :: v) ++ [c'], dkind d)]) by (by destruct d).
           cbn [app] in *. rewrite Dt. cbn [app].
           replace (c :: v ++ c' :: r') with ((c :: v ++ [c']) ++ r') by (cbn [app]; by rewrite <- app_assoc).
           econstructor; [apply tk_delim; [exact ND|]| | |].
           ++ cbn [app]. rewrite <- app_assoc. exact Sh.
           ++ destruct Sh as (_ & C & _). split_and!.
              ** intros X. by destruct (closed_not_cut d _ C).
              ** intros [[= -> _]|[= -> _]]; done.
              ** done.
           ++ fold bl'. eapply (bracket_delim d); [|done]. destruct Sh as (_ & C & _). by apply closed_opener in C.
           ++ rewrite NL. exact S.
      * rewrite <- Et, El in T. rewrite T. clear T.
        pose proof (count_nl_nonneg rest) as NN.
        destruct (After (length text) (line + count_nl rest)%Z) as (t4 & i4 & l4 & -> & L4 & M4 & S4); [lia|].
        rewrite (drop_ge text (S (length text))) in S4 by lia.
        eexists _, _, _. split; [reflexivity|]. split_and!; [lia|lia|]. intros ts S.
        rewrite <- !app_assoc. apply push_word; [done|done|]. cbn [app].
        apply S4 in S. rewrite (scan_nil_inv _ _ _ _ S).
        assert (Ed' : drop i text = c :: rest) by (by rewrite Ed). cbn [app] in N. rewrite Ed' in *.
        assert (CO : cut_off d (c :: rest)) by (split; done).
        destruct (opener_no_nl _ _ _ PK) as (N1 & N2 & N3).
        assert (CN : count_nl (c :: rest) = count_nl rest) by (rewrite count_nl_cons, bool_decide_eq_false_2 by done; done).
        econstructor; [by apply tk_cut_off with (d := d)| |by eapply (bracket_delim d)|constructor].
        split_and!.
        -- by rewrite CN.
        -- intros [[= -> _]|[= -> _]]; done.
        -- intros X. destruct X. by exists d.
  - pose proof (prefix_fit_none _ _ (Hord i) PF) as NP.
    assert (NO : ~ opens (drop i text)).
    { intros [d O]. apply (NP (dext d)); [by destruct d|by rewrite ext_key_opener]. }
    assert (Nc : c <> "("%char /\ c <> "{"%char).
    { split; intros ->; [apply (NP EParen)|apply (NP ECurly)]; try done; rewrite Ed; by exists (drop (S i) text). }
    assert (Sk : e_skip (xconf e) = []) by (by destruct Ce as [->|[->| ->]]).
    assert (Se : e_sep (xconf e) = SeparatorCharset) by (by destruct Ce as [->|[->| ->]]).
    rewrite Sk, Se, contain_sep. cbn [length Nat.eqb negb andb].
    assert (Tk : take (S i) text = take i text ++ [c]) by (by apply take_S_r).
    rewrite Tk. fold (lstep c line).
    destruct (negb _ && has_suffix _ _) eqn:R.
    + assert (G : (c = ")"%char \/ c = "}"%char) /\ st = (c, b0) :: st0 /\ e <> ECommon /\ e_close (xconf e) = false /\ ext_kinds e = []).
      { destruct Ce as [->|[->| ->]]; [discriminate R|..]; cbn [xconf e_ret] in R; apply andb_true_iff in R as [_ R];
          apply has_suffix_spec in R; apply suffix1 in R as ->; cbn in Fr; split_and!; try tauto; done. }
      destruct G as (Hc & -> & Ne & -> & ->). pose proof (closer_sep _ Hc) as Hsep. eexists _, _, _. split; [reflexivity|]. split_and!; [lia|done|]. intros ts S.
      rewrite Ed. rewrite <- app_assoc. apply push_word; [by rewrite <- Ed|right; right; by exists c|].
      rewrite (sep_string c Hsep). cbn [app]. apply scan_close; tauto || done.
    + assert (NC : forall b' st', st <> (c, b') :: st').
      { intros b' st' E. destruct (frame_closer _ _ _ _ _ _ _ Fr E) as (_ & Er & _). rewrite Er in R. cbn [length Nat.eqb negb andb] in R.
        rewrite (proj2 (has_suffix_spec _ _) (proj2 (suffix1 _ _ _) eq_refl)) in R. done. }
      case_bool_decide as Hsep.
      * destruct (IH e (S i) [] (lstep c line) bl' st b0 st0 Fr Cl) as (t3 & i3 & l3 & -> & L3 & M3 & S3); [lia|intros w1 c' w2 E; by destruct w1|].
        eexists _, _, _. split; [reflexivity|]. split_and!; [lia|done|]. intros ts S.
        rewrite Ed. rewrite <- !app_assoc. apply push_word; [by rewrite <- Ed|right; right; by exists c|].
        rewrite (sep_string c Hsep). cbn [app]. apply scan_sep; [done|tauto..|done|]. by apply S3.
      * assert (Wl : word_ok (w ++ [c]) (drop (S i) text)).
        { intros w1 c' w2 E. destruct w2 as [|x w2] using rev_ind.
          - apply app_inj_tail in E as [-> ->]. cbn [app]. split; [done|]. by rewrite <- Ed.
          - clear IHw2. rewrite app_comm_cons, app_assoc in E. apply app_inj_tail in E as [-> <-].
            destruct (W w1 c' w2 eq_refl) as [W1 W2]. split; [done|]. rewrite <- app_assoc. cbn [app]. by rewrite <- Ed. }
        assert (c <> c_nl) as Nn by (intros ->; apply Hsep, nl_sep).
        assert (El : lstep c line = line) by (unfold lstep; by rewrite bool_decide_eq_false_2).
        rewrite El.
        destruct (IH e (S i) (w ++ [c]) line bl st b0 st0 Fr Cl) as (t3 & i3 & l3 & -> & L3 & M3 & S3); [lia|done|].
        eexists _, _, _. split; [reflexivity|]. split_and!; [lia|done|]. intros ts S.
        rewrite Ed. apply S3 in S. by rewrite <- app_assoc in S.
Qed.

Lemma extract_spec (h : heap) (text : str) : SpecNode.wf h ->
  exists h' ls, extract ord h text = Ok (h', head ls) /\ SpecNode.wf h' /\ h `prefix_of` h' /\ chain h' ls /\
    (forall l, l ∈ ls -> length h <= l) /\ tokens text (map (pay h') ls).
Proof.
  intros W. unfold extract.
  destruct (code_run text (S (length text)) ECommon 0 [] 0 0 [] 0%Z [] eq_refl) as (toks & i & line & T & _ & L & Sc); [constructor|lia| |].
  { intros w1 c w2 E. by destruct w1. }
  destruct (run_trun (S (length text)) ord text ECommon (mkX h [] 0 0%Z) (mkXL None None 0%Z) [] h toks i line) as (x' & ls & -> & W' & P & C & N & E & _).
  { constructor; try done. by intros l Hl%elem_of_nil. }
  { exact T. }
  cbn [res_bind app map] in *. exists (x_heap x'), ls. split_and!; try done.
  rewrite E. specialize (Sc []). rewrite app_nil_r in Sc. apply Sc. rewrite drop_ge by (specialize (L eq_refl); lia). constructor.
Qed.
End order.
