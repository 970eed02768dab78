(** The grammar of SpecGo.v: the kinds its tokens get. *)
From Verif Require Import SpecGo P_Get GoProofs GoLayout.

Lemma lx_so : lx $"[" = ($"[", KSquareL). Proof. reflexivity. Qed.
Lemma lx_sc : lx $"]" = ($"]", KSquareR). Proof. reflexivity. Qed.
Lemma lx_po : lx $"(" = ($"(", KParenL). Proof. reflexivity. Qed.
Lemma lx_pc : lx $")" = ($")", KParenR). Proof. reflexivity. Qed.
Lemma lx_co : lx $"{" = ($"{", KCurlyL). Proof. reflexivity. Qed.
Lemma lx_cc : lx $"}" = ($"}", KCurlyR). Proof. reflexivity. Qed.
Lemma lx_sp : lx $" " = ($" ", KSpace). Proof. reflexivity. Qed.
Lemma lx_comma : lx $"," = ($",", KComma). Proof. reflexivity. Qed.
Lemma lx_nl : lx [c_nl] = ([c_nl], KNewLine). Proof. reflexivity. Qed.
Lemma lx_tab : lx [c_tab] = ([c_tab], KTab). Proof. reflexivity. Qed.
Lemma lx_map : lx $"map" = ($"map", KMap). Proof. reflexivity. Qed.
Lemma lx_chan : lx $"chan" = ($"chan", KChannel). Proof. reflexivity. Qed.
Lemma lx_func : lx $"func" = ($"func", KFunc). Proof. reflexivity. Qed.
Lemma lx_type : lx $"type" = ($"type", KType). Proof. reflexivity. Qed.
Lemma lx_struct : lx $"struct" = ($"struct", KStruct). Proof. reflexivity. Qed.
Lemma lx_interface : lx $"interface" = ($"interface", KInterface). Proof. reflexivity. Qed.
Lemma lx_eq : lx $"=" = ($"=", KSymbol). Proof. reflexivity. Qed.
Ltac lxs := rewrite ?lx_so, ?lx_sc, ?lx_po, ?lx_pc, ?lx_co, ?lx_cc, ?lx_sp, ?lx_comma, ?lx_nl, ?lx_tab, ?lx_map, ?lx_chan, ?lx_func, ?lx_type, ?lx_struct, ?lx_interface, ?lx_eq.
Ltac knot := eapply bool_decide_unpack; vm_compute; exact Logic.I.

Lemma lx_raw w : kind_new w = KRaw -> lx w = (w, KRaw). Proof. intros E. unfold lx. by rewrite E. Qed.
Lemma now_raw k w : kind_new w = KRaw -> now k w = (w, k). Proof. intros E. unfold now. by rewrite bool_decide_eq_true_2. Qed.
Lemma now_other k w : kind_new w <> KRaw -> now k w = lx w. Proof. intros E. unfold now. by rewrite bool_decide_eq_false_2. Qed.
Lemma basic_raw w : kind_new w = KBasic -> kind_new w <> KRaw. Proof. intros ->. discriminate. Qed.

(** ** Types and parameters *)
Lemma rf_word deep name typ w rest rest' : kind_new w ∈ [KRaw; KBasic] -> refines deep name typ true rest rest' ->
  refines deep name typ true (lx w :: rest) (now typ w :: rest').
Proof.
  rewrite !elem_of_cons, elem_of_nil. intros [E|[E|[]]] H.
  - rewrite lx_raw, now_raw by done. exact (rf_raw deep name typ true w _ _ H).
  - rewrite now_other by (by apply basic_raw). unfold lx. rewrite E. apply rf_other; [knot|done].
Qed.
Lemma rf_space deep name typ b rest rest' : refines deep name typ b rest rest' -> refines deep name typ b (lx $" " :: rest) (lx $" " :: rest').
Proof. intros H. lxs. apply rf_other; [knot|done]. Qed.
(** In square brackets *)
Definition index_pen (deep : bool) : pen := let ix := if deep then now KParamType else lx in mkPen ix ix ix.
Lemma typed_word deep w : typed deep (lx w) = (if deep then now KParamType else lx) w.
Proof.
  unfold typed. destruct deep; [|done]. cbn [andb snd lx]. destruct (decide (kind_new w = KRaw)) as [E|E].
  - rewrite bool_decide_eq_true_2 by done. by rewrite now_raw.
  - rewrite bool_decide_eq_false_2 by done. by rewrite now_other.
Qed.
Lemma typed_lit deep w : bool_decide (kind_new w = KRaw) = false -> typed deep (lx w) = lx w.
Proof. intros E. unfold typed. cbn [snd lx]. rewrite E, andb_false_r. done. Qed.
Lemma typed_out deep : (forall t, map (typed deep) (ty_out source t) = ty_out (index_pen deep) t) /\ (forall ps, map (typed deep) (ps_out source ps) = ps_out (index_pen deep) ps).
Proof.
  apply ty_plist_ind; cbn [ty_out ps_out source index_pen p_type p_index p_name]; change (inside source) with source; change (inside (index_pen deep)) with (index_pen deep); intros; cbn [map]; rewrite ?map_app; cbn [map]; rewrite ?(typed_lit deep $"["), ?(typed_lit deep $"]"), ?(typed_lit deep $" "), ?(typed_lit deep $"{"), ?(typed_lit deep $"}"), ?(typed_lit deep $"("), ?(typed_lit deep $")"), ?(typed_lit deep $"func") by reflexivity; rewrite ?typed_word, ?map_app; try congruence; try done.
  - rewrite source_out, plain_out by done. f_equal; [destruct name; cbn [map]; rewrite ?(typed_lit deep $" ") by reflexivity; rewrite ?typed_word; done|]. f_equal; [done|]. destruct rest as [|o u r]; [done|]. cbn [map]. rewrite (typed_lit deep $","), (typed_lit deep $" ") by reflexivity. by rewrite H0.
Qed.
Lemma index_squares n : index_word n -> squares (map snd [lx n]).
Proof.
  intros [_ K]. cbn [map snd lx]. apply sq_other; [..|constructor]; intros E; rewrite E in K; revert K; knot.
Qed.
Lemma ty_squares t : ty_ok t -> squares (map snd (ty_out source t)).
Proof. intros T. apply kmatched_squares. eapply (inline_kmatched (ml := true)). by apply ty_inline. Qed.
Lemma args_squares ps : args_ok ps -> squares (map snd (ps_out source ps)).
Proof. intros T. apply kmatched_squares. eapply (inline_kmatched (ml := true)). by apply args_inline. Qed.
Lemma rf_index deep name typ b n rest rest' : index_word n -> refines deep name typ b rest rest' ->
  refines deep name typ b (lx $"[" :: lx n :: lx $"]" :: rest) (lx $"[" :: (if deep then now KParamType else lx) n :: lx $"]" :: rest').
Proof.
  intros N H. lxs. rewrite <- (typed_word deep n). exact (rf_square deep name typ b $"[" [lx n] $"]" _ _ (index_squares n N) H).
Qed.
Lemma rf_ty_index deep name typ b t rest rest' : ty_ok t -> refines deep name typ b rest rest' ->
  refines deep name typ b (lx $"[" :: ty_out source t ++ lx $"]" :: rest) (lx $"[" :: ty_out (index_pen deep) t ++ lx $"]" :: rest').
Proof. intros T H. lxs. rewrite <- (proj1 (typed_out deep)). apply rf_square; [by apply ty_squares|done]. Qed.
Lemma rf_args deep name typ b ps rest rest' : args_ok ps -> refines deep name typ b rest rest' ->
  refines deep name typ b (lx $"[" :: ps_out source ps ++ lx $"]" :: rest) (lx $"[" :: ps_out (index_pen deep) ps ++ lx $"]" :: rest').
Proof. intros T H. lxs. rewrite <- (proj2 (typed_out deep)). apply rf_square; [by apply args_squares|done]. Qed.
Lemma rf_empty_index deep name typ b rest rest' : refines deep name typ b rest rest' ->
  refines deep name typ b (lx $"[" :: lx $"]" :: rest) (lx $"[" :: lx $"]" :: rest').
Proof. intros H. lxs. exact (rf_square deep name typ b $"[" [] $"]" _ _ sq_nil H). Qed.
Lemma pl_lit deep name typ b w rest rest' : bool_decide (kind_new w ∉ [KRaw; KParamName; KParamType; KComma; KParenL; KParenR; KSquareL; KFunc]) = true ->
  refines deep name typ b rest rest' -> refines deep name typ b (lx w :: rest) (lx w :: rest').
Proof. intros N H. apply rf_other; [by apply bool_decide_eq_true in N|done]. Qed.
Lemma now_lit k w : bool_decide (kind_new w = KRaw) = false -> now k w = lx w.
Proof. intros E. unfold now. by rewrite E. Qed.
Lemma now_symbol k w : symbol w -> now k w = lx w.
Proof. intros [_ E]. apply now_other. rewrite E. discriminate. Qed.
Lemma now_empty k w : w ∈ [$"interface"; $"struct"] -> now k w = lx w.
Proof. rewrite !elem_of_cons, elem_of_nil. intros [-> |[-> |[]]]; by apply now_lit. Qed.
Lemma rf_symbol deep name typ b w rest rest' : symbol w -> refines deep name typ b rest rest' -> refines deep name typ b (lx w :: rest) (lx w :: rest').
Proof. intros [_ E] H. unfold lx. rewrite E. apply rf_other; [knot|done]. Qed.
Lemma rf_empty deep name typ b w rest rest' : w ∈ [$"interface"; $"struct"] -> refines deep name typ b rest rest' -> refines deep name typ b (lx w :: rest) (lx w :: rest').
Proof. rewrite !elem_of_cons, elem_of_nil. intros [-> |[-> |[]]] H; by apply pl_lit. Qed.
Lemma in_settled N T deep : T = KParamType \/ deep = false -> inside (settled N T deep) = index_pen deep.
Proof. intros [-> | ->]; [done|]. done. Qed.
(** The first token of a type *)
Lemma words_cons t k ts : k ∉ [KComma; KParenR] -> k ∉ white -> words ((t, k) :: ts) = Datatypes.S (words ts).
Proof. intros N1 N2. cbn [words]. by rewrite !bool_decide_eq_false_2. Qed.
Lemma type_words t rest : ty_ok t -> exists n, words (ty_out source t ++ rest) = Datatypes.S n.
Proof.
  assert (L : forall w r, bool_decide (kind_new w ∉ [KComma; KParenR]) && bool_decide (kind_new w ∉ white) = true -> exists n, words (lx w :: r) = Datatypes.S n).
  { intros w r H. apply andb_true_iff in H as [H1 H2]. eexists. apply words_cons; [by apply bool_decide_eq_true in H1|by apply bool_decide_eq_true in H2]. }
  assert (I : forall w r, ident w -> exists n, words (lx w :: r) = Datatypes.S n). { intros w r [_ K]. unfold lx. rewrite K. eexists. apply words_cons; knot. }
  destruct t as [w|w a|t|n t|m k t|c t|w|s t|ps|ps r]; cbn [ty_ok ty_out source p_type p_index app]; intros Ok; try (apply L; reflexivity).
  - destruct Ok as [_ K]. rewrite !elem_of_cons, elem_of_nil in K. destruct K as [K|[K|[]]]; unfold lx; rewrite K; eexists; (apply words_cons; knot).
  - destruct Ok as [W _]. by apply I.
  - destruct Ok as [[-> |W] _]; [by apply L|by apply I].
  - destruct Ok as [[-> |W] _]; [by apply L|by apply I].
  - rewrite !elem_of_cons, elem_of_nil in Ok. destruct Ok as [[-> |[-> |[]]]|W]; [by apply L|by apply L|by apply I].
  - destruct Ok as [[_ K] _]. unfold lx. rewrite K. eexists. apply words_cons; knot.
Qed.
Definition blanks (xs : list lexeme) : Prop := Forall (fun x => snd x ∈ white) xs.
Lemma blanks_one : blanks [lx $" "]. Proof. constructor; [knot|constructor]. Qed.
Lemma blanks_words xs q : blanks xs -> words (xs ++ q) = words q.
Proof.
  intros B. induction B as [|[t k] xs K B IH]; [done|]. cbn [snd] in K. cbn [app words]. rewrite (bool_decide_eq_true_2 (k ∈ white)) by done.
  rewrite bool_decide_eq_false_2; [done|]. intros H. assert (F : Forall (fun k => k ∉ [KComma; KParenR]) white) by knot. rewrite Forall_forall in F. by apply (F k).
Qed.
Lemma blanks_refines deep name typ b xs q q' : blanks xs -> refines deep name typ b q q' -> refines deep name typ b (xs ++ q) (xs ++ q').
Proof.
  intros B H. induction B as [|[t k] xs K B IH]; [done|]. cbn [app]. apply rf_other; [|done]. cbn [snd] in K.
  assert (F : Forall (fun k => k ∉ [KRaw; KParamName; KParamType; KComma; KParenL; KParenR; KSquareL; KFunc]) white) by knot. rewrite Forall_forall in F. by apply F.
Qed.
Lemma blanks_params deep name typ xs : blanks xs -> params deep name typ xs xs.
Proof. intros B. apply pm_one. pose proof (blanks_refines deep name typ (bool_decide (words xs = 1)) xs [] [] B (rf_nil _ _ _ _)) as H. by rewrite app_nil_r in H. Qed.
Lemma params_app deep name typ xs xs' ys ys' : params deep name typ xs xs' -> params deep name typ ys ys' -> params deep name typ (xs ++ lx $"," :: ys) (xs' ++ lx $"," :: ys').
Proof.
  intros H Hy. rewrite lx_comma. induction H as [name typ p p' R|name typ p p' t ps ps' R H IH].
  - by apply pm_more.
  - rewrite <- !app_assoc. cbn [app]. apply pm_more; [done|by apply IH].
Qed.
Lemma rf_first deep name typ w rest rest' : kind_new w = KRaw -> refines deep name typ true rest rest' ->
  refines deep name typ false (lx w :: rest) (now name w :: rest').
Proof. intros E H. rewrite lx_raw, now_raw by done. exact (rf_raw deep name typ false w _ _ H). Qed.
Lemma rf_first_word deep name typ w rest rest' : kind_new w ∈ [KRaw; KBasic] -> refines deep name typ true rest rest' -> refines deep name typ false rest rest' ->
  refines deep name typ false (lx w :: rest) (now name w :: rest').
Proof.
  rewrite !elem_of_cons, elem_of_nil. intros [E|[E|[]]] H H'; [by apply rf_first|].
  rewrite now_other by (by apply basic_raw). unfold lx. rewrite E. apply rf_other; [knot|done].
Qed.
Lemma many_words t : ty_ok t -> reads_as_type None t = false -> words (ty_out source t) <> 1.
Proof.
  assert (L : forall w r, bool_decide (kind_new w ∉ [KComma; KParenR]) && bool_decide (kind_new w ∉ white) = true -> words (lx w :: r) = Datatypes.S (words r)).
  { intros w r H. apply andb_true_iff in H as [H1 H2]. apply words_cons; [by apply bool_decide_eq_true in H1|by apply bool_decide_eq_true in H2]. }
  assert (I : forall w r, ident w -> words (lx w :: r) = Datatypes.S (words r)). { intros w r [_ K]. unfold lx. rewrite K. apply words_cons; knot. }
  assert (Sp : forall r, words (lx $" " :: r) = words r) by done.
  destruct t as [w|w a|t|n t|m k t|c t|w|s t|ps|ps r]; cbn [ty_ok ty_out source p_type p_index app reads_as_type]; intros Ok N; try done.
  - destruct Ok as [W _]. rewrite (I w), (L $"[") by done. lia.
  - rewrite (L $"[") by done. destruct Ok as [[_ K] _]. rewrite !elem_of_cons, elem_of_nil in K. destruct K as [K|[K|[K|[]]]]; unfold lx; rewrite K; (rewrite words_cons by knot); lia.
  - destruct Ok as [[-> |W] _]; [rewrite (L $"map"), (L $"[") by done; lia|rewrite (I m), (L $"[") by done; lia].
  - destruct Ok as [C T]. destruct (type_words t [] T) as [n' E]. rewrite app_nil_r in E. destruct C as [-> |W]; [rewrite (L $"chan") by done|rewrite (I c) by done]; rewrite Sp, E; lia.
  - rewrite !elem_of_cons, elem_of_nil in Ok. destruct Ok as [[-> |[-> |[]]]|W]; [rewrite (L $"interface"), (L $"{") by done; lia|rewrite (L $"struct"), (L $"{") by done; lia|rewrite (I w), (L $"{") by done; lia].
  - destruct Ok as [[_ K] [T _]]. destruct (type_words t [] T) as [n' E]. rewrite app_nil_r in E. unfold lx. rewrite K, words_cons by knot. lia.
Qed.
Lemma one_param N T deep o t lead : blanks lead ->
  match o with Some n => param_name n | None => True end -> ty_ok t ->
  refines deep N T true (ty_out source t) (ty_out (settled N T deep) t) ->
  refines deep N T false (ty_out source t) (unnamed (settled N T deep) t) ->
  let p := lead ++ match o with Some n => [lx n; lx $" "] | None => [] end ++ ty_out source t in
  refines deep N T (bool_decide (words p = 1)) p
    (lead ++ match o with Some n => [now N n; lx $" "] | None => [] end ++
      (if reads_as_type o t then ty_out (settled N T deep) t else unnamed (settled N T deep) t)).
Proof.
  intros Hl Ho Ok H H' p. pose proof (blanks_words lead (match o with Some n => [lx n; lx $" "] | None => [] end ++ ty_out source t) Hl) as Ew.
  unfold p. rewrite Ew. clear p Ew. apply blanks_refines; [done|]. clear Hl lead. destruct o as [n|]; cbn [app].
  - destruct (type_words t [] Ok) as [m Em]. rewrite app_nil_r in Em. cbn [reads_as_type]. destruct (decide (n = $"_")) as [-> |Nn].
    { rewrite (bool_decide_eq_false_2 ($"_" <> $"_")) by (intros X; by apply X). rewrite now_lit by reflexivity. change (words (lx $"_" :: lx $" " :: ty_out source t)) with (Datatypes.S (words (ty_out source t))).
      rewrite Em, bool_decide_eq_false_2 by lia. apply pl_lit; [reflexivity|]. by apply rf_space. }
    rewrite (bool_decide_eq_true_2 (n <> $"_")) by done. destruct Ho as [[_ K]|Ho]; [|done]. rewrite lx_raw, now_raw by done.
    rewrite words_cons by knot. change (words (lx $" " :: ty_out source t)) with (words (ty_out source t)). rewrite Em, bool_decide_eq_false_2 by lia.
    apply (rf_raw deep N T false n). apply rf_space. apply H.
  - destruct (reads_as_type None t) eqn:Nt.
    + destruct t as [w|w a|t|n t|m k t|c t|w|s t|ps|ps r]; try done. destruct Ok as [_ K]. cbn [ty_out source p_type settled]. assert (words [lx w] = 1) as ->.
      { rewrite !elem_of_cons, elem_of_nil in K. destruct K as [K|[K|[]]]; unfold lx; rewrite K; (rewrite words_cons by knot); done. }
      rewrite bool_decide_eq_true_2 by done. apply rf_word; [done|constructor].
    + rewrite bool_decide_eq_false_2 by (by apply many_words). exact H'.
Qed.
Lemma ty_refines_all : (forall t, ty_ok t -> forall deep rest rest', refines deep KParamName KParamType true rest rest' ->
    refines deep KParamName KParamType true (ty_out source t ++ rest) (ty_out (settled KParamName KParamType deep) t ++ rest') /\
    (refines deep KParamName KParamType false rest rest' ->
     refines deep KParamName KParamType false (ty_out source t ++ rest) (unnamed (settled KParamName KParamType deep) t ++ rest'))) /\
  (forall ps, ps_ok ps -> forall deep lead, blanks lead -> params deep KParamName KParamType (lead ++ ps_out source ps) (lead ++ ps_out (settled KParamName KParamType deep) ps)).
Proof.
  apply ty_plist_ind; cbn [ty_ok ps_ok ty_out unnamed ps_out source settled p_type p_index p_name]; change (inside source) with source; cbn [app].
  - intros w [_ K] deep rest rest' H. split; [by apply rf_word|]. intros H'. by apply rf_first_word.
  - intros w args _ ([_ K] & _ & A & _) deep rest rest' H. rewrite (in_settled KParamName KParamType deep) by (by left). rewrite <- !app_assoc. cbn [app].
    split; [apply rf_word; [rewrite K; left|]; by apply rf_args|]. intros H'. apply rf_first; [done|]. by apply rf_args.
  - intros t IH Ok deep rest rest' H. destruct (IH Ok deep rest rest' H) as [I1 I2]. split; [by apply rf_empty_index|]. intros H'. apply rf_empty_index. by apply I2.
  - intros n t IH [N Ok] deep rest rest' H. destruct (IH Ok deep rest rest' H) as [I1 I2]. split; [by apply rf_index|]. intros H'. apply rf_index; [done|]. by apply I2.
  - intros m k _ t IH (M & K & _ & Ok) deep rest rest' H. destruct (IH Ok deep rest rest' H) as [I1 I2]. rewrite (in_settled KParamName KParamType deep) by (by left). rewrite <- !app_assoc. cbn [app]. destruct (decide (m = $"map")) as [-> |N].
    + rewrite !now_lit by reflexivity. rewrite bool_decide_eq_true_2 by done. split; [|intros H'; specialize (I2 H')]; (apply pl_lit; [reflexivity|]); by apply rf_ty_index.
    + rewrite bool_decide_eq_false_2 by done. destruct M as [M|[_ M]]; [done|]. split; [apply rf_word; [rewrite M; left|]; by apply rf_ty_index|]. intros H'. apply rf_first; [done|]. by apply rf_ty_index.
  - intros c t IH (M & Ok) deep rest rest' H. destruct (IH Ok deep rest rest' H) as [I1 I2]. destruct (decide (c = $"chan")) as [-> |N].
    + rewrite !now_lit by reflexivity. rewrite bool_decide_eq_true_2 by done. split; [|intros H'; specialize (I2 H')]; (apply pl_lit; [reflexivity|]); by apply rf_space.
    + rewrite bool_decide_eq_false_2 by done. destruct M as [M|[_ M]]; [done|]. split; [apply rf_word; [rewrite M; left|]; by apply rf_space|]. intros H'. apply rf_first; [done|]. by apply rf_space.
  - intros w W deep rest rest' H. destruct (decide (w ∈ [$"interface"; $"struct"])) as [E|N].
    + rewrite !now_empty by done. split; [|intros H']; (apply rf_empty; [done|]); (apply pl_lit; [reflexivity|]); (apply pl_lit; [reflexivity|done]).
    + destruct W as [W|[_ W]]; [done|]. split; [apply rf_word; [rewrite W; left|]|intros H'; apply rf_first; [done|]]; (apply pl_lit; [reflexivity|]); (apply pl_lit; [reflexivity|done]).
  - intros s t IH (Sy & Ok & _) deep rest rest' H. destruct (IH Ok deep rest rest' H) as [I1 I2]. rewrite !now_symbol by done. split; [by apply rf_symbol|]. intros H'. apply rf_symbol; [done|]. by apply I2.
  - intros ps IH P deep rest rest' H. rewrite <- !app_assoc. cbn [app]. lxs.
    split; [|intros H']; (apply (rf_func deep KParamName KParamType); [apply (IH P deep []); by constructor|done]).
  - intros ps IH r IHr [P R] deep rest rest' H. destruct (IHr R deep rest rest' H) as [I1 I2]. rewrite <- !app_assoc. cbn [app]. rewrite lx_func, lx_po, lx_pc.
    split; [|intros H'; specialize (I2 H')]; (apply (rf_func deep KParamName KParamType); [apply (IH P deep []); by constructor|]); by apply rf_space.
  - intros _ deep lead Hl. rewrite !app_nil_r. by apply blanks_params.
  - intros o t IHt rest IHr (Ho & Ht & Hr) deep lead Hl. rewrite source_out.
    assert (One : refines deep KParamName KParamType (bool_decide (words (lead ++ match o with Some n => [lx n; lx $" "] | None => [] end ++ ty_out source t) = 1)) (lead ++ match o with Some n => [lx n; lx $" "] | None => [] end ++ ty_out source t)
       (lead ++ match o with Some n => [now KParamName n; lx $" "] | None => [] end ++ if reads_as_type o t then ty_out (settled KParamName KParamType deep) t else unnamed (settled KParamName KParamType deep) t)).
    { destruct (IHt Ht deep [] [] (rf_nil _ _ _ _)) as [I1 I2]. specialize (I2 (rf_nil _ _ _ _)). rewrite !app_nil_r in I1, I2. by apply (one_param _ _ deep o t lead). }
    destruct rest as [|o2 t2 r2].
    + rewrite !app_nil_r. by apply pm_one.
    + remember (PCons o2 t2 r2) as rest eqn:Er. clear Er. specialize (IHr Hr deep [lx $" "] blanks_one). cbn [app] in IHr.
      rewrite !(app_assoc _ (ty_out _ t)), !(app_assoc _ (if reads_as_type o t then _ else _)), !(app_assoc lead). rewrite !lx_comma. apply pm_more; [|exact IHr]. rewrite <- !app_assoc. exact One.
Qed.
Lemma params_ok deep ps : ps_ok ps -> params deep KParamName KParamType (ps_out source ps) (ps_out (settled KParamName KParamType deep) ps).
Proof. intros P. apply (proj2 ty_refines_all ps P deep []). constructor. Qed.
Lemma parens_ok ps : ps_ok ps -> parens KParamName KParamType (in_parens (ps_out source ps)) (in_parens (ps_out param_pen ps)).
Proof. intros P. unfold in_parens. lxs. apply pr_intro. by apply params_ok. Qed.
Lemma blanks_tabs n : blanks (tabs n).
Proof. induction n as [|n IH]; [constructor|]. cbn [tabs repeat]. constructor; [knot|exact IH]. Qed.
Definition row_end (o : option str) : list lexeme := match o with Some c => [lx $" "; comment c] | None => [] end ++ [lx [c_nl]].
Lemma blanks_row o : blanks (row_end o).
Proof. destruct o as [c|]; cbn [row_end app]; repeat (constructor; [cbn [snd comment]; knot|]); constructor. Qed.
Lemma rows_then n rows X X' lead : Forall (fun r : plist * option str => fst r <> PNil /\ ps_ok (fst r) /\ match snd r with Some c => c_nl ∉ c | None => True end) rows -> blanks lead ->
  (forall lead, blanks lead -> params false KParamName KParamType (lead ++ X) (lead ++ X')) ->
  params false KParamName KParamType (lead ++ concat (map (prow_out source n) rows) ++ X) (lead ++ concat (map (prow_out param_pen n) rows) ++ X').
Proof.
  intros P Bl H. revert lead Bl. induction P as [|[ps o] rows (_ & P & Ho) F IH]; intros lead Bl; cbn [map concat app fst snd] in *.
  - by apply H.
  - assert (E : forall p X, lead ++ (prow_out p n (ps, o) ++ concat (map (prow_out p n) rows)) ++ X = ((lead ++ tabs (Datatypes.S n)) ++ ps_out p ps) ++ lx $"," :: row_end o ++ concat (map (prow_out p n) rows) ++ X).
    { intros p Y. unfold prow_out at 1. cbn [fst snd]. fold (row_end o). repeat (rewrite <- ?app_assoc; cbn [app]). done. }
    rewrite !E. apply params_app; [apply ty_refines_all; [done|]; apply Forall_app; split; [done|apply blanks_tabs]|]. apply IH, blanks_row.
Qed.
Lemma rows_params n rows lead : group_ok (Rows n rows) -> blanks lead ->
  params false KParamName KParamType (lead ++ concat (map (prow_out source n) rows) ++ tabs n) (lead ++ concat (map (prow_out param_pen n) rows) ++ tabs n).
Proof.
  intros P Bl. apply rows_then; [done|done|]. intros l L. apply blanks_params. apply Forall_app. split; [done|apply blanks_tabs].
Qed.
Lemma group_ok_parens g : group_ok g -> listed g -> parens KParamName KParamType (group_out source g) (group_out param_pen g).
Proof.
  intros P L. destruct g as [ps|n rows| |]; [by apply parens_ok| |destruct L..]. cbn [group_out]. unfold in_parens. rewrite lx_po, lx_pc. apply pr_intro.
  apply (rows_params n rows [lx [c_nl]]); [done|]. constructor; [knot|constructor].
Qed.
(** The word [...func] and what belongs to its parameter. *)
Lemma call_refines o w lead (F F' : list lexeme) : blanks lead -> match o with Some n => param_name n | None => True end -> ident w ->
  refines false KParamName KParamType true F F' ->
  let p := lead ++ match o with Some n => [lx n; lx $" "] | None => [] end ++ lx w :: lx $"(" :: F in
  refines false KParamName KParamType (bool_decide (words p = 1)) p
    (lead ++ match o with Some n => [now KParamName n; lx $" "] | None => [] end ++
      (if reads_as_type o (TFunc PNil) then now KParamType w else now KParamName w) :: lx $"(" :: F').
Proof.
  intros Hl Ho [_ K] H p. pose proof (blanks_words lead (match o with Some n => [lx n; lx $" "] | None => [] end ++ lx w :: lx $"(" :: F) Hl) as Ew.
  unfold p. rewrite Ew. clear p Ew. apply blanks_refines; [done|]. clear Hl lead.
  assert (Ec : words (lx w :: lx $"(" :: F) = Datatypes.S (Datatypes.S (words F))).
  { rewrite lx_raw, lx_po by done. rewrite words_cons by knot. rewrite words_cons by knot. done. }
  rewrite !(now_raw _ w) by done. rewrite (lx_raw w) in * by done. rewrite lx_po in *. destruct o as [n|]; cbn [app].
  - cbn [reads_as_type]. destruct (decide (n = $"_")) as [-> |Nn].
    { rewrite (bool_decide_eq_false_2 ($"_" <> $"_")) by (intros X; by apply X). rewrite now_lit by reflexivity. change (words (lx $"_" :: lx $" " :: (w, KRaw) :: ($"(", KParenL) :: F)) with (Datatypes.S (words ((w, KRaw) :: ($"(", KParenL) :: F))).
      rewrite Ec, bool_decide_eq_false_2 by lia. apply pl_lit; [reflexivity|]. apply rf_space. by apply (rf_call false false). }
    rewrite (bool_decide_eq_true_2 (n <> $"_")) by done. destruct Ho as [[_ Kn]|Ho]; [|done]. rewrite lx_raw, now_raw by done.
    rewrite words_cons by knot. change (words (lx $" " :: (w, KRaw) :: ($"(", KParenL) :: F)) with (words ((w, KRaw) :: ($"(", KParenL) :: F)). rewrite Ec, bool_decide_eq_false_2 by lia.
    apply (rf_raw false KParamName KParamType false n). apply rf_space. by apply (rf_call false true).
  - cbn [reads_as_type]. rewrite Ec, bool_decide_eq_false_2 by lia. by apply (rf_call false false).
Qed.
Lemma call_params o w fs lead : blanks lead -> match o with Some n => param_name n | None => True end -> ident w -> ps_ok fs ->
  params false KParamName KParamType
    (lead ++ match o with Some n => [lx n; lx $" "] | None => [] end ++ lx w :: lx $"(" :: first_out source fs)
    (lead ++ match o with Some n => [now KParamName n; lx $" "] | None => [] end ++ (if reads_as_type o (TFunc PNil) then now KParamType w else now KParamName w) :: lx $"(" :: first_out param_pen fs).
Proof.
  intros Hl Ho W P. destruct fs as [|o2 t rest].
  { cbn [first_out]. apply pm_one. apply (call_refines o w lead [] []); [done..|constructor]. }
  destruct P as (P1 & P2 & P3).
  assert (F : refines false KParamName KParamType true (match o2 with Some n => [lx n; lx $" "] | None => [] end ++ ty_out source t)
                                                       (match o2 with Some n => [now KParamType n; lx $" "] | None => [] end ++ ty_out param_pen t)).
  { destruct (proj1 ty_refines_all t P2 false [] [] (rf_nil _ _ _ _)) as [I1 _]. rewrite !app_nil_r in I1. destruct o2 as [n|]; [|exact I1]. cbn [app].
    destruct P1 as [[_ K]| ->].
    - apply rf_word; [rewrite K; left|]. by apply rf_space.
    - rewrite now_lit by reflexivity. apply pl_lit; [reflexivity|]. by apply rf_space. }
  pose proof (call_refines o w lead _ _ Hl Ho W F) as One. cbv zeta in One.
  cbn [first_out]. change (p_type source) with lx. change (p_type param_pen) with (now KParamType). destruct rest as [|o3 t3 r3].
  - rewrite !app_nil_r. by apply pm_one.
  - remember (PCons o3 t3 r3) as rest eqn:Er. clear Er.
    pose proof (proj2 ty_refines_all rest P3 false [lx $" "] blanks_one) as R. cbn [app] in R.
    pose proof (pm_more _ _ _ _ _ $"," _ _ One R) as X. rewrite <- lx_comma in X. repeat (rewrite <- ?app_assoc in X; cbn [app] in X). exact X.
Qed.
(** What becomes of the parameters: they are a list in parentheses, perhaps followed by
    results of the parameter [...func] and the last parenthesis. *)
Lemma group_split g : group_ok g -> in_line g -> exists q q' r r', group_out source g = q ++ r /\ group_out param_pen g = q' ++ r' /\ parens KParamName KParamType q q' /\
  (forall xs xs', results xs xs' -> outcome (r ++ xs) (r' ++ xs')) /\ (forall xs xs', type_results xs xs' -> type_results (r ++ xs) (r' ++ xs')).
Proof.
  intros P In. destruct g as [ps|n rows|ps o w fs rs|]; [| | |destruct In].
  1, 2: eexists _, _, [], []; rewrite !app_nil_r; split; [done|]; split; [done|]; split; [by apply group_ok_parens|]; split; intros xs xs' H; [by apply oc_plain|exact H].
  destruct P as (P1 & P2 & P3 & P4 & P5).
  set (call := fun p : pen => match o with Some n => [p_name p n; lx $" "] | None => [] end ++ (if reads_as_type o (TFunc PNil) then p_type p w else p_name p w) :: lx $"(" :: first_out p fs).
  exists (lx $"(" :: (before_last source ps ++ call source) ++ [lx $")"]), (lx $"(" :: (before_last param_pen ps ++ call param_pen) ++ [lx $")"]), (several source rs ++ [lx $")"]), (several param_pen rs ++ [lx $")"]).
  assert (Et : reads_as_type o (TFunc fs) = reads_as_type o (TFunc PNil)) by (by destruct o).
  assert (E : forall p, group_out p (Calls ps o w fs rs) = (lx $"(" :: (before_last p ps ++ call p) ++ [lx $")"]) ++ several p rs ++ [lx $")"]).
  { intros p. cbn [group_out]. unfold in_parens, call_out, call. rewrite Et. repeat (rewrite <- ?app_assoc; cbn [app]). done. }
  split; [apply E|]. split; [apply E|]. split.
  - rewrite lx_po, lx_pc. apply pr_intro. unfold call. destruct ps as [|o1 t1 r1].
    + cbn [before_last app]. pose proof (call_params o w fs [] ltac:(constructor) P2 P3 P4) as X. cbn [app] in X. destruct (reads_as_type o (TFunc PNil)); exact X.
    + pose proof (params_ok false _ P1) as X. remember (PCons o1 t1 r1) as ps eqn:Ep. assert (Eb : forall p, before_last p ps = ps_out p ps ++ [lx $","; lx $" "]) by (intros p; by rewrite Ep).
      rewrite !Eb. rewrite <- !app_assoc. cbn [app]. apply params_app; [exact X|].
      pose proof (call_params o w fs [lx $" "] blanks_one P2 P3 P4) as Y. cbn [app] in Y. destruct (reads_as_type o (TFunc PNil)); exact Y.
  - destruct rs as [|o1 t1 r1].
    + cbn [several app]. split; intros xs xs' H; [rewrite lx_pc; apply oc_stray; [knot|done]|rewrite lx_pc; apply tr_other; [knot|done]].
    + pose proof (parens_ok _ P5) as X. remember (PCons o1 t1 r1) as rs eqn:Er.
      assert (Es : forall p, several p rs = lx $" " :: in_parens (ps_out p rs)) by (intros p; by rewrite Er). rewrite !Es.
      split; intros xs xs' H; rewrite <- !app_assoc; cbn [app]; lxs; [apply oc_list; [knot|done..]|]. apply tr_other; [knot|]. apply tr_list; [done|]. apply tr_other; [knot|done].
Qed.
(** With [...func] on a line of its own the signature ends with that line. *)
Lemma group_cut n rows o w fs rs note : group_ok (CallRows n rows o w fs rs note) -> exists q q' r r' e tl,
  group_out source (CallRows n rows o w fs rs note) = q ++ r ++ e ++ tl /\ group_out param_pen (CallRows n rows o w fs rs note) = q' ++ r' ++ e ++ tl /\
  parens KParamName KParamType q q' /\ outcome r r' /\ line_end e.
Proof.
  intros (P1 & P2 & P3 & P4 & P5 & P6).
  set (call := fun p : pen => match o with Some n => [p_name p n; lx $" "] | None => [] end ++ (if reads_as_type o (TFunc PNil) then p_type p w else p_name p w) :: lx $"(" :: first_out p fs).
  exists (lx $"(" :: ([lx [c_nl]] ++ concat (map (prow_out source n) rows) ++ tabs (Datatypes.S n) ++ call source) ++ [lx $")"]),
    (lx $"(" :: ([lx [c_nl]] ++ concat (map (prow_out param_pen n) rows) ++ tabs (Datatypes.S n) ++ call param_pen) ++ [lx $")"]),
    (several source rs ++ [lx $","]), (several param_pen rs ++ [lx $","]), (note_part note ++ [lx [c_nl]]), (tabs n ++ [lx $")"]).
  assert (Et : reads_as_type o (TFunc fs) = reads_as_type o (TFunc PNil)) by (by destruct o).
  assert (E : forall p, group_out p (CallRows n rows o w fs rs note) =
    (lx $"(" :: ([lx [c_nl]] ++ concat (map (prow_out p n) rows) ++ tabs (Datatypes.S n) ++ call p) ++ [lx $")"]) ++ (several p rs ++ [lx $","]) ++ (note_part note ++ [lx [c_nl]]) ++ tabs n ++ [lx $")"]).
  { intros p. cbn [group_out]. unfold in_parens, call_out, call. rewrite Et. repeat (rewrite <- ?app_assoc; cbn [app]). done. }
  split; [apply E|]. split; [apply E|]. clear E. split; [|split].
  - rewrite lx_po, lx_pc. apply pr_intro. apply rows_then; [done|constructor; [knot|constructor]|]. intros lead Bl. rewrite !app_assoc. unfold call.
    pose proof (call_params o w fs (lead ++ tabs (Datatypes.S n)) ltac:(apply Forall_app; split; [done|apply blanks_tabs]) P2 P3 P4) as X. destruct (reads_as_type o (TFunc PNil)); exact X.
  - destruct rs as [|o1 t1 r1].
    + cbn [several app]. rewrite lx_comma. apply oc_stray; [knot|]. apply rs_nil.
    + pose proof (parens_ok _ P5) as X. remember (PCons o1 t1 r1) as rs eqn:Er.
      assert (Es : forall p, several p rs = lx $" " :: in_parens (ps_out p rs)) by (intros p; by rewrite Er). rewrite !Es. cbn [app]. rewrite lx_comma. lxs. apply oc_list; [knot|done|apply rs_nil].
  - destruct note as [c|]; cbn [note_part app]; unfold comment; lxs; constructor.
Qed.
