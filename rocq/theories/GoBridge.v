(** The grammar of SpecGo.v: from its sentences to what ParseScope returns. *)
From Verif Require Import SpecGo SpecMerge P_Text LocalLex Scope ResetSpec SplitProofs Opaque NodeChain LexSpecProofs P_Lex P_Scope P_Spell P_Get P_Kinds P_TypeKinds P_Local P_Rename P_Merge GoProofs GoCalm GoLayout GoKinds GoFunc GoType.
From Verif Require Import LocalProofs.

(** ** The text is kept *)
Lemma pen_texts_all : (forall t p, (forall w, fst (p_name p w) = w) -> (forall w, fst (p_type p w) = w) -> (forall w, fst (p_index p w) = w) -> map fst (ty_out p t) = map fst (ty_out source t) /\ map fst (unnamed p t) = map fst (ty_out source t)) /\
  (forall ps p, (forall w, fst (p_name p w) = w) -> (forall w, fst (p_type p w) = w) -> (forall w, fst (p_index p w) = w) -> map fst (ps_out p ps) = map fst (ps_out source ps)).
Proof.
  apply ty_plist_ind; cbn [ty_out unnamed ps_out source p_name p_type p_index].
  - intros w p N T I. cbn [map]. by rewrite N, T.
  - intros w a IH p N T I. cbn [map]. rewrite !map_app, N, T, (IH (inside p)), (IH (inside source)) by done. done.
  - intros t IH p N T I. destruct (IH p N T I) as [I1 I2]. cbn [map]. by rewrite I1, I2.
  - intros n t IH p N T I. destruct (IH p N T I) as [I1 I2]. cbn [map]. by rewrite I1, I2, I.
  - intros m k IHk t IH p N T I. destruct (IH p N T I) as [I1 I2]. destruct (IHk (inside p)) as [K1 _]; [done|done|done|]. destruct (IHk (inside source)) as [K2 _]; [done|done|done|]. cbn [map]. rewrite !map_app, N, T, K1, K2. cbn [map]. destruct (bool_decide (m = $"map")); by rewrite I1, ?I2.
  - intros c t IH p N T I. destruct (IH p N T I) as [I1 I2]. cbn [map]. destruct (bool_decide (c = $"chan")); by rewrite I1, ?I2, N, T.
  - intros w p N T I. cbn [map]. by rewrite N, T.
  - intros s t IH p N T I. destruct (IH p N T I) as [I1 I2]. cbn [map]. by rewrite I1, I2, N, T.
  - intros ps IH p N T I. cbn [map]. by rewrite !map_app, IH.
  - intros ps IH r IHr p N T I. destruct (IHr p N T I) as [I1 I2]. cbn [map]. rewrite !map_app, IH by done. cbn [map]. by rewrite I1, I2.
  - done.
  - intros o t IHt rest IHr p N T I. destruct (IHt p N T I) as [I1 I2]. rewrite source_out. rewrite !map_app.
    assert (Et : map fst (if reads_as_type o t then ty_out p t else unnamed p t) = map fst (ty_out source t)) by (by destruct (reads_as_type o t)). rewrite Et.
    assert (E : map fst (match rest with PNil => [] | PCons _ _ _ => lx $"," :: lx $" " :: ps_out p rest end) = map fst (match rest with PNil => [] | PCons _ _ _ => lx $"," :: lx $" " :: ps_out source rest end)).
    { specialize (IHr p N T I). destruct rest; [done|]. cbn [map]. do 2 f_equal. exact IHr. }
    rewrite E. f_equal. destruct o as [n|]; [|done]. cbn [map]. by rewrite N.
Qed.
Lemma pen_texts : (forall t p, (forall w, fst (p_name p w) = w) -> (forall w, fst (p_type p w) = w) -> (forall w, fst (p_index p w) = w) -> map fst (ty_out p t) = map fst (ty_out source t)) /\
  (forall ps p, (forall w, fst (p_name p w) = w) -> (forall w, fst (p_type p w) = w) -> (forall w, fst (p_index p w) = w) -> map fst (ps_out p ps) = map fst (ps_out source ps)).
Proof. split; [|apply pen_texts_all]. intros t p N T I. by apply pen_texts_all. Qed.
Lemma settled_texts n t deep : (forall w, fst (p_name (settled n t deep) w) = w) /\ (forall w, fst (p_type (settled n t deep) w) = w) /\ (forall w, fst (p_index (settled n t deep) w) = w).
Proof. split; [done|]. split; [done|]. by destruct deep. Qed.
Lemma settled_ty n k deep t : map fst (ty_out (settled n k deep) t) = map fst (ty_out source t).
Proof. apply pen_texts; apply settled_texts. Qed.
Lemma settled_ps n k deep ps : map fst (ps_out (settled n k deep) ps) = map fst (ps_out source ps).
Proof. apply pen_texts; apply settled_texts. Qed.
Lemma parens_texts n k deep ps : map fst (in_parens (ps_out (settled n k deep) ps)) = map fst (in_parens (ps_out source ps)).
Proof. unfold in_parens. cbn [map]. by rewrite !map_app, settled_ps. Qed.
Lemma several_texts p rs : (forall w, fst (p_name p w) = w) -> (forall w, fst (p_type p w) = w) -> (forall w, fst (p_index p w) = w) -> map fst (several p rs) = map fst (several source rs).
Proof.
  intros N T I. destruct rs as [|o t r]; [done|]. unfold several, in_parens. cbn [map]. rewrite !map_app. do 3 f_equal. by apply pen_texts.
Qed.
Lemma first_texts n k deep fs : map fst (first_out (settled n k deep) fs) = map fst (first_out source fs).
Proof.
  destruct fs as [|o t r]; [done|]. cbn [first_out]. rewrite !map_app, settled_ty. f_equal; [by destruct o|]. f_equal.
  destruct r as [|o2 t2 r2]; [done|]. cbn [map]. do 2 f_equal. apply settled_ps.
Qed.
Lemma rows_texts n k deep m rows : map fst (concat (map (prow_out (settled n k deep) m) rows)) = map fst (concat (map (prow_out source m) rows)).
Proof.
  induction rows as [|[ps o] rows IH]; [done|]. cbn [map concat]. rewrite !map_app, IH. f_equal. unfold prow_out. cbn [fst snd]. rewrite !map_app, settled_ps. done.
Qed.
Lemma group_texts n k deep g : map fst (group_out (settled n k deep) g) = map fst (group_out source g).
Proof.
  destruct g as [ps|m rows|ps o w fs rs|m rows o w fs rs note]; [apply parens_texts| | |].
  2: { cbn [group_out]. unfold in_parens, call_out. cbn [map]. rewrite !map_app. cbn [map]. rewrite !map_app, first_texts. do 2 f_equal.
       f_equal; [destruct ps as [|o1 t1 r1]; [done|]; unfold before_last; rewrite !map_app, settled_ps; done|].
       f_equal; [|apply several_texts; apply settled_texts]. f_equal; [by destruct o|]. f_equal. by destruct (reads_as_type o (TFunc fs)). }
  2: { cbn [group_out]. unfold in_parens, call_out. cbn [map app]. rewrite !map_app. cbn [map]. rewrite !map_app, first_texts, rows_texts, several_texts by apply settled_texts. do 4 f_equal. f_equal. f_equal.
       f_equal; [by destruct o|]. f_equal. by destruct (reads_as_type o (TFunc fs)). }
  cbn [group_out]. unfold in_parens. cbn [map app]. rewrite !map_app. do 4 f_equal. apply rows_texts.
Qed.
Lemma spelling_app (xs ys : list lexeme) : spelling (xs ++ ys) = spelling xs ++ spelling ys.
Proof. unfold spelling. by rewrite map_app, concat_app. Qed.
Lemma spelling_cons (x : lexeme) xs : spelling (x :: xs) = fst x ++ spelling xs. Proof. done. Qed.
Lemma spelling_fst (xs ys : list lexeme) : map fst xs = map fst ys -> spelling xs = spelling ys.
Proof. unfold spelling. by intros ->. Qed.
Lemma joined_spelling w (xs : list lexeme) : spelling (joined w xs) = w ++ spelling xs.
Proof.
  assert (P : forall w, spelling (piece w) = w) by (intros [|c v]; [done|]; unfold spelling; cbn [piece map concat fst]; by rewrite app_nil_r).
  revert w. induction xs as [|[t k] xs IH]; intros w; cbn [joined]; [rewrite P; by rewrite app_nil_r|].
  destruct (bool_decide _); [rewrite spelling_app, !spelling_cons, P, IH; done|]. rewrite IH, spelling_cons. by rewrite <- app_assoc.
Qed.
Lemma single_spelling t : spelling (res_type t) = spelling (ty_out source t).
Proof.
  assert (J : forall t, spelling (joined [] (ty_out source t)) = spelling (ty_out source t)) by (intros u; apply joined_spelling).
  induction t as [w|w args|t IH|n t IH|m k _ t IH|c t IH|w|s t IH|ps|ps r IH]; try apply J; cbn [res_type].
  - cbn [ty_out]. rewrite !spelling_cons. by rewrite IH.
  - apply spelling_fst, settled_ty.
  - cbn [ty_out]. unfold in_parens. cbn [app]. rewrite <- app_assoc. cbn [app]. rewrite !spelling_cons, !spelling_app, !spelling_cons, IH. do 3 f_equal. apply spelling_fst, settled_ps.
Qed.
Lemma res_spelling r : spelling (res_after r) = spelling (res_src r).
Proof.
  destruct r as [|t|t rs|ps]; cbn [res_after res_src]; [done|..]; rewrite !spelling_cons.
  - f_equal. apply single_spelling.
  - rewrite !spelling_app. f_equal. f_equal; [apply single_spelling|]. by apply spelling_fst, several_texts.
  - f_equal. apply spelling_fst, group_texts.
Qed.
Lemma after_spelling t : spelling (after_name t) = spelling (ty_out source t).
Proof.
  induction t as [w|w args|t IH|n t IH|m k _ t IH|c t IH|w|s t IH|ps|ps r IH]; try done; cbn [after_name ty_out]; change (inside source) with source.
  - rewrite !spelling_cons. by rewrite IH.
  - rewrite !spelling_cons. by rewrite IH.
  - rewrite !spelling_cons, !spelling_app, !spelling_cons. by rewrite IH.
  - rewrite !spelling_cons. by rewrite single_spelling.
  - rewrite !spelling_cons. by rewrite IH.
  - unfold in_parens. rewrite !spelling_cons, !spelling_app. do 3 f_equal. apply spelling_fst, settled_ps.
  - unfold in_parens. cbn [app]. rewrite <- app_assoc. cbn [app]. rewrite !spelling_cons, !spelling_app, !spelling_cons, single_spelling. do 3 f_equal. apply spelling_fst, settled_ps.
Qed.
Lemma first_spelling t : spelling (named_first t) = spelling (ty_out source t).
Proof.
  induction t as [w|w args|t IH|n t IH|m k _ t IH|c t IH|w|s t IH|ps|ps r IH]; try done; cbn [named_first ty_out]; change (inside source) with source.
  - rewrite !spelling_cons. by rewrite IH.
  - rewrite !spelling_cons. by rewrite IH.
  - rewrite !spelling_cons, !spelling_app, !spelling_cons. destruct (bool_decide _); [by rewrite IH|by rewrite after_spelling].
  - rewrite !spelling_cons. destruct (bool_decide _); [by rewrite IH|by rewrite single_spelling].
  - rewrite !spelling_cons. by rewrite IH.
  - unfold in_parens. rewrite !spelling_cons, !spelling_app. do 3 f_equal. apply spelling_fst, settled_ps.
  - unfold in_parens. cbn [app]. rewrite <- app_assoc. cbn [app]. rewrite !spelling_cons, !spelling_app, !spelling_cons, IH. do 3 f_equal. apply spelling_fst, settled_ps.
Qed.
Lemma fres_spelling r : spelling (fres_after r) = spelling (res_src r).
Proof.
  destruct r as [|t|t rs|ps]; try apply res_spelling; cbn [fres_after res_src]; rewrite !spelling_cons; [by rewrite first_spelling|].
  rewrite !spelling_app, first_spelling. do 2 f_equal. by apply spelling_fst, several_texts.
Qed.
Lemma type_spelling t rs note : rs = PNil \/ ends_func t -> alone t -> spelling (type_after t rs note) = spelling (ty_out source t ++ several source rs ++ note_out note).
Proof.
  assert (One : forall t, spelling (one_node t note) = spelling (ty_out source t ++ several source PNil ++ note_out note)).
  { intros u. cbn [several app]. rewrite spelling_app. unfold one_node. destruct note as [c|]; cbn [note_out]; rewrite !spelling_cons; cbn [fst]; [by rewrite <- app_assoc|done]. }
  assert (Sv : spelling (several param_pen rs) = spelling (several source rs)) by (by apply spelling_fst, several_texts).
  intros Er Al. induction t as [w|w args|t IH|n t IH|m k _ t IH|c t IH|w|s t IH|ps|ps r IH]; cbn [type_after alone ends_func] in *.
  - destruct Er as [-> |[]]. destruct (bool_decide _); [apply One|done].
  - destruct Er as [-> |[]]. apply One.
  - cbn [ty_out app]. rewrite !spelling_cons. by rewrite IH.
  - cbn [ty_out app]. rewrite !spelling_cons. by rewrite IH.
  - destruct (bool_decide _).
    + cbn [ty_out app]. change (inside source) with source. rewrite <- app_assoc. cbn [app]. rewrite !spelling_cons, !spelling_app, !spelling_cons, IH by done. by rewrite !spelling_app.
    + destruct Er as [-> |Ef]; [apply One|]. exfalso. eapply flat_no_func; [apply Al|exact Ef].
  - destruct (bool_decide _).
    + cbn [ty_out app]. rewrite !spelling_cons. by rewrite IH.
    + destruct Er as [-> |Ef]; [apply One|]. exfalso. eapply flat_no_func; [apply Al|exact Ef].
  - destruct Er as [-> |[]]. done.
  - cbn [ty_out app]. rewrite !spelling_cons. by rewrite IH.
  - cbn [ty_out app]. unfold in_parens. cbn [app]. rewrite <- !app_assoc. rewrite !spelling_cons, !spelling_app. rewrite Sv. do 3 f_equal. apply spelling_fst, settled_ps.
  - cbn [ty_out app]. unfold in_parens. repeat (rewrite <- ?app_assoc; cbn [app]). rewrite !spelling_cons, !spelling_app, !spelling_cons, !spelling_app, first_spelling, Sv. do 3 f_equal. apply spelling_fst, settled_ps.
Qed.
Lemma rows_spelling {A} (f g : A -> list lexeme) rows : (forall r, spelling (f r) = spelling (g r)) -> spelling (concat (map f rows)) = spelling (concat (map g rows)).
Proof. intros H. induction rows as [|r rows IH]; [done|]. cbn [map concat]. by rewrite !spelling_app, H, IH. Qed.
Lemma names_texts p n more pad : (forall w, fst (p_name p w) = w) -> map fst (names_out p n more pad) = map fst (names_out source n more pad).
Proof.
  intros P. unfold names_out. cbn [map]. rewrite !map_app. f_equal; [by rewrite P|]. f_equal. induction more as [|m more IH]; [done|]. cbn [map concat]. rewrite !map_app, IH. f_equal. cbn [map]. by rewrite P.
Qed.
Lemma srow_texts d r : map fst (srow_out field_pen d r) = map fst (srow_out source d r).
Proof.
  assert (Ty : forall t, map fst (ty_out field_pen t) = map fst (ty_out source t)) by (intros t; apply settled_ty).
  destruct r as [n more pad t rs tag note|n more pad hs w|tag note|t tag note|c|]; cbn [srow_out]; try done; rewrite !map_app; f_equal.
  - rewrite names_texts by done. rewrite Ty. do 3 f_equal. by apply several_texts.
  - rewrite names_texts by done. f_equal. f_equal. induction hs as [|h hs IH]; [done|]. cbn [map concat]. rewrite !map_app, IH. f_equal. destruct h as [| |m k]; [done|done|].
    cbn [holder_out map]. rewrite !map_app. f_equal. f_equal. f_equal. by apply pen_texts.
  - f_equal. rewrite embed_source. destruct t; try apply Ty. by destruct (tail_out tag note).
Qed.
Lemma srows_spelling rows : forall d, spelling (srows_out field_pen d rows) = spelling (srows_out source d rows).
Proof.
  induction rows as [|r rows IH]; intros d; [done|]. cbn [srows_out].
  destruct r as [n more pad t rs tag note|n more pad hs w|tag note|t tag note|c|]; rewrite !spelling_app, IH; f_equal; apply spelling_fst, srow_texts.
Qed.
Lemma decl_spelling d : decl_ok d -> spelling (decl_after d) = spelling (decl_src d).
Proof.
  intros Ok.   destruct d as [recv name tps ps r body note|name tps rows note|name tps rows note|name tps alias t rs note|name tps ps r note|code|kw code|c|c]; cbn [decl_after decl_src]; try done.
  - assert (Er : spelling (func_after ps r) = spelling (res_src r)) by (destruct ps; [apply res_spelling..|done]).
    rewrite !spelling_cons, !spelling_app, !spelling_cons, !spelling_app, Er. do 2 f_equal.
    assert (E : spelling (recv_out receiver_pen recv) = spelling (recv_out source recv)).
    { destruct recv as [[o t]|]; [|done]. unfold recv_out. rewrite !spelling_app. f_equal. apply spelling_fst. apply (parens_texts _ _ _ (PCons o t PNil)). }
    assert (E2 : spelling (group_out param_pen ps) = spelling (group_out source ps)) by (apply spelling_fst, group_texts).
    by rewrite E, E2.
  - rewrite !spelling_app, !spelling_cons, !spelling_app. f_equal. do 5 f_equal. apply srows_spelling.
  - rewrite !spelling_app, !spelling_cons, !spelling_app. f_equal. do 5 f_equal. apply rows_spelling. intros r.
    destruct r as [n ps r nt|w more nt|c|]; cbn [irow_after irow_src]; try done.
    rewrite !spelling_cons, !spelling_app, res_spelling. f_equal. f_equal. f_equal. apply spelling_fst, group_texts.
  - destruct Ok as (_ & _ & _ & Al & Er & _). rewrite !spelling_app, type_spelling; [by rewrite !spelling_app| |done]. destruct Er as [-> |[Ef _]]; [by left|by right].
  - rewrite !spelling_app, !spelling_cons, !spelling_app. f_equal. f_equal. f_equal; [apply spelling_fst, group_texts|]. f_equal. apply fres_spelling.
Qed.

(** ** Scopes *)
Lemma begins_lit (k : str) : bool_decide (k ∈ scope_keywords) = true -> begins k k.
Proof. intros H. split; [by apply bool_decide_eq_true in H|done]. Qed.
Lemma decl_head d : decl_ok d -> exists w k r, decl_src d = (w, k) :: r /\ begins (decl_kind d) w /\ ((is_word w /\ w <> $"(" /\ w <> $"{") \/ exists d' k', r = lx [c_nl] :: k' /\ k' = [] /\ opener d' `prefix_of` w /\ w <> $"(" /\ w <> $"{").
Proof.
  assert (P : forall w, plain_word w -> is_word w /\ w <> $"(" /\ w <> $"{").
  { intros w W. split; [by apply plain_is_word|]. split; intros ->; exact (plain_not_bracket _ W ltac:(knot)). }
  destruct d as [recv name tps ps r body note|name tps rows note|name tps rows note|name tps alias t rs note|name tps ps r note|code|kw code|c|c]; cbn [decl_ok decl_src decl_kind]; unfold type_head; cbn [app]; intros Ok.
  - eexists _, _, _. split; [reflexivity|]. split; [by apply begins_lit|]. left. apply P. plain_lit.
  - eexists _, _, _. split; [reflexivity|]. split; [by apply begins_lit|]. left. apply P. plain_lit.
  - eexists _, _, _. split; [reflexivity|]. split; [by apply begins_lit|]. left. apply P. plain_lit.
  - eexists _, _, _. split; [reflexivity|]. split; [by apply begins_lit|]. left. apply P. plain_lit.
  - eexists _, _, _. split; [reflexivity|]. split; [by apply begins_lit|]. left. apply P. plain_lit.
  - eexists _, _, _. split; [reflexivity|]. split; [by apply begins_lit|]. left. apply P. plain_lit.
  - eexists _, _, _. split; [reflexivity|]. destruct Ok as [K _]. rewrite !elem_of_cons, elem_of_nil in K.
    destruct K as [-> |[-> |[-> |[-> |[]]]]]; (split; [by apply begins_lit|]); left; apply P; plain_lit.
  - eexists _, _, _. split; [reflexivity|]. split; [split; [knot|by exists c]|]. right. exists DLine, []. split; [done|]. split; [done|]. split; [by exists c|]. by split.
  - pose proof (closed_opener _ _ (proj1 Ok)) as [q E]. eexists _, _, _. split; [reflexivity|]. split; [split; [knot|by exists q]|]. right. exists DBlock, []. split; [done|]. split; [done|]. split; [by exists q|]. by rewrite E.
Qed.
Lemma viewed_nodes h sc v ns : viewed h sc v -> scope_nodes h sc ns -> ns <> [] -> v = (scope_line (Some sc), scope_kind_of (Some sc), map (pay h) ns).
Proof.
  intros (cur & C & Hd & ->) (Hn & bf & C2) N. f_equal. f_equal.
  destruct ns as [|x ns]; [done|]. destruct cur as [|y cur]; [cbn in *; congruence|]. assert (y = x) as -> by (cbn in *; congruence).
  pose proof (chain_unique h _ _ x C C2 ltac:(by left) ltac:(apply elem_of_app; right; by left)) as Eq.
  destruct bf as [|z bf]; [exact Eq|]. exfalso. cbn in Eq. injection Eq as <- _. apply chain_NoDup, NoDup_cons in C2 as [C2 _]. apply C2, elem_of_app. right. by left.
Qed.
Lemma shape_nodes h sc ns v : viewed h sc v -> scope_nodes h sc ns -> ns <> [] -> shape v = (scope_kind_of (Some sc), map (shows h) ns).
Proof. intros V N E. rewrite (viewed_nodes _ _ _ _ V N E). unfold shape. cbn [fst snd]. by rewrite map_map. Qed.
Lemma last_nl d k : exists r, decl_src d ++ blank k = r ++ [lx [c_nl]].
Proof.
  assert (D : exists r, decl_src d = r ++ [lx [c_nl]]).
  { assert (App : forall xs ys : list lexeme, (exists r, ys = r ++ [lx [c_nl]]) -> exists r, xs ++ ys = r ++ [lx [c_nl]]) by (intros xs ys [r ->]; exists (xs ++ r); by rewrite app_assoc).
    assert (Con : forall (x : lexeme) (ys : list lexeme), (exists r, ys = r ++ [lx [c_nl]]) -> exists r, x :: ys = r ++ [lx [c_nl]]) by (intros x ys [r ->]; by exists (x :: r)).
    assert (End : exists r : list lexeme, [lx [c_nl]] = r ++ [lx [c_nl]]) by (by exists []).
    assert (Note : forall note, exists r, note_out note = r ++ [lx [c_nl]]).
    { intros [c|]; [exists [lx $" "; comment c]; reflexivity|exists []; reflexivity]. }
    destruct d; cbn [decl_src]; repeat first [apply Note|exact End|apply App|apply Con]. }
  destruct k as [|k]; [by rewrite app_nil_r|]. exists (decl_src d ++ blank k). rewrite <- app_assoc. f_equal. unfold blank. generalize (lx [c_nl]). clear. intros x.
  induction k as [|k IH]; [done|]. change (x :: repeat x (S k) = x :: (repeat x k ++ [x])). by rewrite IH.
Qed.
Lemma item_tokens d k : decl_ok d -> exists ts, tokens (item_text (d, k)) ts /\ map text_kind ts = decl_src d ++ blank k /\ tpieces (-1) ts [] [ts] /\ match ts with [] => False | t :: _ => tline t = 0%Z /\ begins (decl_kind d) (snd (fst t)) end.
Proof.
  intros Ok. pose proof (decl_spelled d k Ok) as Sp. destruct (C74_read_back _ Sp) as (ts & T & E). exists ts. split; [exact T|]. split; [exact E|].
  destruct (decl_head d Ok) as (w & kw & r & Ed & B & _). rewrite Ed in E.
  destruct ts as [|t ts]; [discriminate E|]. assert (Bt : begins (decl_kind d) (snd (fst t))) by (cbn [map app] in E; injection E as E1 _ _; unfold text_kind in E1; by rewrite E1).
  destruct (calm_pieces (item_text (d, k)) (t :: ts) T) as [P L].
  - rewrite E, <- Ed. exact Sp.
  - rewrite E, <- Ed. by apply decl_calm.
  - exists t, ts. split; [done|]. by exists (decl_kind d).
  - split; [exact P|]. by split.
Qed.
Lemma item_complete d k : decl_ok d -> complete (item_text (d, k)).
Proof.
  intros Ok. destruct (item_tokens d k Ok) as (ts & T & E & _). destruct (last_nl d k) as [r El].
  assert (Tx : tok_texts ts = map fst (decl_src d ++ blank k)) by (rewrite <- E, map_map; done).
  assert (X : exists ts0 t, ts = ts0 ++ [t] /\ snd (fst t) = [c_nl]).
  { rewrite El in E. apply map_eq_app in E as (t0 & t1 & -> & _ & E1). destruct t1 as [|t [|? ?]]; [discriminate|..|discriminate]. exists t0, t. split; [done|]. by injection E1 as ? _. }
  destruct X as (ts0 & t & Ets & Et). exists ts, t. split; [done|]. split; [rewrite Ets; apply last_snoc|]. split; [done|].
  rewrite Tx, <- (app_nil_r (map fst _)). rewrite (open_matched _ (decl_matched d k Ok) [] []); [done|constructor].
Qed.
Lemma item_begins d k : decl_ok d -> begins_scope (item_text (d, k)).
Proof.
  intros Ok. destruct (item_tokens d k Ok) as (ts & T & E & _ & Hh). destruct ts as [|t ts]; [done|]. exists (t :: ts), t, ts.
  split; [done|]. split; [done|]. split; [exists (decl_kind d); apply Hh|]. intros xs c ys Ex Hc.
  assert (Tx : tok_texts (t :: ts) = map fst (decl_src d ++ blank k)) by (rewrite <- E, map_map; done). rewrite Tx in Ex. clear Tx E Hh T ts t.
  destruct (decl_head d Ok) as (w & kw & r & Ed & _ & Hw). rewrite Ed in Ex. cbn [map fst app] in Ex. rewrite map_app in Ex.
  destruct xs as [|x xs].
  - exfalso. cbn [app] in Ex. assert (w = c) as -> by congruence. destruct Hw as [(_ & N1 & N2)|(? & ? & _ & _ & _ & N1 & N2)]; tauto.
  - cbn [app] in Ex. assert (x = w) as -> by congruence. destruct Hw as [(Wd & _)|(d' & k' & -> & -> & _)]; [exists w; split; [left|done]|exfalso].
    assert (F : Forall (fun t => t = [c_nl]) (map fst [lx [c_nl]] ++ map fst (blank k))).
    { apply Forall_app. split; [constructor; [done|constructor]|]. unfold blank. clear. induction k as [|k IH]; [constructor|]. cbn [repeat map]. constructor; [done|exact IH]. }
    assert (Hin : c ∈ map fst [lx [c_nl]] ++ map fst (blank k)).
    { assert (Eq : map fst [lx [c_nl]] ++ map fst (blank k) = xs ++ c :: ys) by congruence. rewrite Eq. apply elem_of_app. right. left. }
    rewrite Forall_forall in F. specialize (F c Hin). subst c. by destruct Hc.
Qed.
Lemma item_view ord h d k vs : any_order ord -> SpecNode.wf h -> decl_ok d -> parses_to ord h 0 (item_text (d, k)) vs ->
  exists v, vs = [v] /\ shape v = item_shape (d, k) /\ fst (fst v) = 1%Z.
Proof.
  intros O W Ok P. pose proof P as P'. apply parses_view in P' as (ts0 & g0 & gs0 & T0 & TP0 & F0); [|done|done].
  destruct (item_tokens d k Ok) as (ts & T & E & TP & Hh). pose proof (tokens_unique _ _ _ T0 T) as ->.
  destruct (tpieces_unique _ _ _ _ TP0 _ _ TP) as [-> ->]. clear TP0.
  destruct vs as [|v [|? vs]]; [by apply Forall2_length in F0| |by apply Forall2_length in F0]. apply Forall2_cons in F0 as [V0 _]. exists v. split; [done|].
  destruct ts as [|t ts]; [done|]. destruct Hh as [Lt Bt]. cbn [tview] in V0. destruct V0 as [V0 _]. rewrite V0. cbn [fst]. rewrite Lt. split; [|done].
  assert (Kd : new_scope_kind (snd (fst t)) = decl_kind d).
  { destruct (new_scope_kind_begins (snd (fst t))) as [[_ N]|[_ B]]; [by destruct (N _ Bt)|]. by eapply C35_kind_determined. }
  rewrite Kd in V0. clear Kd. destruct P as (h' & scs & Ep & V). destruct scs as [|sc [|? ?]]; [by apply Forall2_length in V| |by apply Forall2_length in V]. apply Forall2_cons in V as [V _].
  assert (Sk : scope_kind_of (Some sc) = decl_kind d) by (destruct V as (cur & _ & _ & ->); cbn [fst] in V0; congruence).
  destruct (C29_tokeniser_terminates ord h (item_text (d, k)) O W) as (h1 & ls & Tk & _). pose proof (tokenised_tokens ord h _ h1 ls O W Tk) as T'.
  assert (Et : t :: ts = map (pay h1) ls) by (by eapply tokens_unique).
  assert (Es : map (shows h1) ls = decl_src d ++ blank k) by (rewrite <- E, Et, map_map; done).
  assert (Hp : pieces h1 (0 - 1) ls [] [ls]).
  { destruct (pieces_total h1 ls (0 - 1)) as (g & gs & HP). pose proof (pieces_tpieces _ _ _ _ _ HP) as X. rewrite <- Et in X. destruct (tpieces_unique _ _ _ _ X _ _ TP) as [Eg Egs].
    apply map_eq_nil in Eg as ->. destruct gs as [|g1 [|? ?]]; [discriminate| |discriminate]. pose proof (pieces_concat _ _ _ _ _ HP) as El. cbn [app concat] in El. rewrite app_nil_r in El. by subst g1. }
  assert (Nz : decl_after d ++ blank k <> []).
  { intros X. apply app_eq_nil in X as [X _]. destruct d; cbn [decl_after decl_src] in X; unfold type_head in X; discriminate X. }
  assert (Go : forall ns, scope_nodes h' sc ns -> map (shows h') ns = decl_after d ++ blank k -> shape v = item_shape (d, k)).
  { intros ns Sn En. rewrite (shape_nodes _ _ _ _ V Sn); [|intros ->; by apply Nz]. rewrite Sk, En. done. }
  assert (Oth : decl_after d = decl_src d -> decl_kind d <> SFunc -> decl_kind d <> SType -> shape v = item_shape (d, k)).
  { intros Ea N1 N2. rewrite <- Sk in N1, N2.
    destruct (parse_inv ord h 0 _ h1 ls h' [sc] O W Tk Ep) as (h2 & g' & gs' & HP' & Esc & _).
    destruct (pieces_det _ _ _ _ _ _ _ Hp HP') as [<- <-]. clear HP'. cbn [map] in Esc.
    assert (Hl : sc_node sc = head ls) by (destruct ls as [|l ls]; [discriminate Et|]; injection Esc as ->; done). clear Esc.
    assert (Nl : forall xs gr ys, ls = xs ++ gr ++ ys -> gr <> [] -> head gr = sc_node sc -> xs = []).
    { intros [|x xs] gr ys El Ne Hd; [done|exfalso]. pose proof (chain_NoDup _ _ (proj2 Tk)) as Nd. rewrite El in Nd. cbn [app] in Nd. apply NoDup_cons in Nd as [Nd _]. apply Nd.
      destruct gr as [|y gr]; [done|]. rewrite Hl, El in Hd. cbn in Hd. injection Hd as ->. apply elem_of_app. right. left. }
    destruct (C34_partition ord h 0 _ h1 ls h' [sc] O W Tk Ep) as (g & gs & El & _ & F).
    destruct gs as [|gr [|? ?]]; [by apply Forall2_length in F| |by apply Forall2_length in F]. apply Forall2_cons in F as [(Hn & Ne & cur & C & Hd & _ & Eq) _].
    specialize (Eq N1 N2). subst cur. cbn [concat] in El. assert (g = []) as -> by (by apply (Nl g gr [])). cbn [app] in El. rewrite app_nil_r in El. subst gr.
    destruct (C40_scope_kinds ord h 0 _ h1 ls h' [sc] sc O W Tk Ep ltac:(left) N1 N2) as (xs & gr & ys & El & Hd2 & C2 & Py).
    assert (gr = ls) as ->.
    { destruct gr as [|y gr]; [by rewrite Hl in Hd2; destruct ls|]. destruct ls as [|l ls]; [done|]. rewrite Hl in Hd2. injection Hd2 as ->. by apply (chain_unique h' _ _ l C2 C); left. }
    apply (Go ls); [split; [done|by exists []]|]. rewrite Ea, <- Es. apply map_ext_in. intros l Hl'%elem_of_list_In. specialize (Py l Hl'). unfold pay in Py. unfold shows. by injection Py as _ -> ->. }
  destruct d as [recv name tps ps r body note|name tps rows note|name tps rows note|name tps alias ty rs note|name tps ps r note|code|kw code|c|c].
  - destruct (C54_function_kinds ord h 0 _ h1 ls h' [sc] [] [ls] 0 ls sc (decl_src (DFunc recv name tps ps r body note) ++ blank k) [] (decl_after (DFunc recv name tps ps r body note) ++ blank k) O W Tk Ep Hp eq_refl eq_refl) as (ns & rest' & Sn & En & Er).
    + rewrite app_nil_r. exact Es.
    + pose proof (func_decl_ok recv name tps ps r body note k Ok) as F. cbv zeta in F. rewrite <- Es in F at 1. rewrite map_map in F. exact F.
    + rewrite (Er eq_refl), app_nil_r in En. exact (Go ns Sn En).
  - destruct (C57_type_kinds ord h 0 _ h1 ls h' [sc] [] [ls] 0 ls sc _ _ O W Tk Ep Hp eq_refl eq_refl Es (type_decl_ok _ k Ok eq_refl Logic.I)) as (ns & Sn & En). exact (Go ns Sn En).
  - destruct (C57_type_kinds ord h 0 _ h1 ls h' [sc] [] [ls] 0 ls sc _ _ O W Tk Ep Hp eq_refl eq_refl Es (type_decl_ok _ k Ok eq_refl Logic.I)) as (ns & Sn & En). exact (Go ns Sn En).
  - destruct (C57_type_kinds ord h 0 _ h1 ls h' [sc] [] [ls] 0 ls sc _ _ O W Tk Ep Hp eq_refl eq_refl Es (type_decl_ok _ k Ok eq_refl Logic.I)) as (ns & Sn & En). exact (Go ns Sn En).
  - destruct (C57_type_kinds ord h 0 _ h1 ls h' [sc] [] [ls] 0 ls sc _ _ O W Tk Ep Hp eq_refl eq_refl Es (type_decl_ok _ k Ok eq_refl Logic.I)) as (ns & Sn & En). exact (Go ns Sn En).
  - destruct (C57_type_kinds ord h 0 _ h1 ls h' [sc] [] [ls] 0 ls sc _ _ O W Tk Ep Hp eq_refl eq_refl Es (type_decl_ok _ k Ok eq_refl Logic.I)) as (ns & Sn & En). exact (Go ns Sn En).
  - apply Oth; [done|..]; destruct Ok as [K _]; rewrite !elem_of_cons, elem_of_nil in K; cbn [decl_kind]; destruct K as [-> |[-> |[-> |[-> |[]]]]]; discriminate.
  - by apply Oth.
  - by apply Oth.
Qed.
Lemma item_reproduced d k : decl_ok d -> reproduced (item_text (d, k)).
Proof.
  intros Ok ord h vs O W P. destruct (item_view ord h d k vs O W Ok P) as (v & -> & Sh & _). cbn [map concat]. rewrite app_nil_r.
  unfold view_text, tok_texts. assert (E : map (fun t => snd (fst t)) (snd v) = map fst (snd (shape v))) by (unfold shape; cbn [snd]; by rewrite map_map).
  rewrite E, Sh. unfold item_shape, item_text. cbn [fst snd]. change (spelling (decl_after d ++ blank k) = spelling (decl_src d ++ blank k)). by rewrite !spelling_app, decl_spelling.
Qed.
