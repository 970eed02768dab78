(** C75: a grammar of Go files, and what parsing and saving does with its sentences. *)
From Verif Require Import SpecGo SpecMerge SpecEdit SpecAst NodeProofs NodeInv NodeChain NodeOps NodeCopy NodeHist NodeFinal ResetSpec Scope Ast SpecScope SpecText SpecLex LexSpecProofs P_Node P_Scope P_Ast P_Get P_Text P_Lex P_Local P_Edit P_Rename P_Merge P_Spell GoProofs GoLayout GoKinds GoFunc GoType GoBridge GoGet GoCheck LocalProofs.

Definition file_ok (is : list item) : Prop := Forall (fun i => decl_ok (fst i)) is.

(** Every declaration is self-contained. *)
Theorem C75_self_contained : forall i, decl_ok (fst i) -> complete (item_text i) /\ begins_scope (item_text i) /\ reproduced (item_text i).
Proof.
  intros [d k] Ok. split; [by apply item_complete|]. split; [by apply item_begins|by apply item_reproduced].
Qed.

Lemma item_views ord h is : any_order ord -> SpecNode.wf h -> file_ok is ->
  exists vss, Forall2 (parses_to ord h 0) (map item_text is) vss /\
    Forall2 (fun i vs => exists v, vs = [v] /\ shape v = item_shape i /\ fst (fst v) = 1%Z) is vss.
Proof.
  intros O W. induction is as [|i is IH]; intros F; [exists []; split; constructor|].
  apply Forall_cons in F as [Oi F]. destruct (IH F) as (vss & P & V). destruct (C59_parse_total ord h 0 (item_text i) O W) as [vs Pv].
  exists (vs :: vss). split; [by constructor|]. constructor; [|done]. destruct i as [d k]. by apply (item_view ord h d k vs O W).
Qed.

(** Parsing a file gives one scope for every declaration, in order, with the
    nodes and kinds of [item_shape], on the lines [item_lines]. *)
Theorem C75_parse : forall ord h is vs, any_order ord -> SpecNode.wf h -> file_ok is ->
  parses_to ord h 0 (file_text is) vs ->
  map shape vs = map item_shape is /\ map (fun v => fst (fst v)) vs = item_lines 1 is.
Proof.
  intros ord h is vs O W F P. destruct (item_views ord h is O W F) as (vss & Pv & V).
  assert (E : vs = stacked 0 (map item_text is) vss).
  { refine (C60_declarations ord h ord h 0 (map item_text is) vss vs O W O W ltac:(lia) _ Pv P). apply Forall_forall. intros f Hf.
    apply elem_of_list_fmap in Hf as (i & -> & Hi). unfold file_ok in F. rewrite Forall_forall in F. specialize (F i Hi). destruct (C75_self_contained i F) as (A & B & _). done. }
  subst vs. clear P Pv. change 1%Z with (1 + 0)%Z. generalize 0%Z as d. induction V as [|i vs is vss (v & -> & Sh & L) _ IH]; intros d; [done|].
  apply Forall_cons in F as [_ F]. cbn [map stacked app item_lines]. destruct (IH F (d + count_nl (item_text i))%Z) as [E1 E2]. rewrite E1, E2.
  rewrite shape_down, Sh. split; [done|]. unfold down at 1. cbn [fst]. rewrite L. do 2 f_equal. lia.
Qed.

(** Saving what was parsed gives back the file. *)
Theorem C75_save : forall ord h is h' scs, any_order ord -> SpecNode.wf h -> file_ok is ->
  parse_scope ord h 0 (file_text is) = Ok (h', scs) -> save_text h' (map Some scs) = Ok (file_text is).
Proof.
  intros ord h is h' scs O W F E. destruct (C59_parse_total ord h 0 (file_text is) O W) as [vs P]. pose proof P as (h2 & scs2 & E2 & V). rewrite E in E2. injection E2 as <- <-.
  rewrite (save_viewed _ _ _ V). f_equal. destruct (C75_parse ord h is vs O W F P) as [Sh _]. clear - Sh F.
  unfold file_text. revert is Sh F. induction vs as [|v vs IH]; intros [|i is] Sh F; try done. cbn [map] in Sh.
  assert (S1 : shape v = item_shape i) by congruence. assert (S2 : map shape vs = map item_shape is) by congruence. clear Sh.
  apply Forall_cons in F as [Ok F]. cbn [map concat]. rewrite (IH is) by done. f_equal.
  unfold view_text, tok_texts. replace (map (fun t => snd (fst t)) (snd v)) with (map fst (snd (shape v))) by (unfold shape; cbn [snd]; by rewrite map_map).
  rewrite S1. destruct i as [d k]. unfold item_shape, item_text. cbn [fst snd]. cbn [fst] in Ok. change (spelling (decl_after d ++ blank k) = spelling (decl_src d ++ blank k)). by rewrite !spelling_app, decl_spelling.
Qed.


(** ** Getters *)
Lemma first_shown h ls xs w K ys : map (shows h) ls = xs ++ (w, K) :: ys -> lacks K xs ->
  (forall l, first_of_kind h ls K l -> text_of h (Some l) = w) /\ ~ none_of_kind h ls K.
Proof.
  intros E L. apply map_eq_app in E as (l1 & [|x l2] & -> & <- & E2); [done|]. cbn [map] in E2.
  assert (Ex : shows h x = (w, K)) by congruence. clear E2. unfold shows in Ex. injection Ex as Tx Kx.
  assert (N : forall y, y ∈ l1 -> kind_of h (Some y) <> K).
  { intros y Hy. unfold lacks in L. rewrite Forall_forall in L. apply (L (shows h y)). apply elem_of_list_fmap. by exists y. }
  split.
  - intros l (as_ & bs & E & Kl & Nl). assert (as_ = l1 /\ l = x) as [-> ->]; [|done]. clear - E Kl Nl N Kx. revert l1 E N. induction as_ as [|a as_ IH]; intros [|b l1] E N.
    + cbn in E. by injection E as -> _.
    + exfalso. cbn in E. injection E as -> _. apply (N l); [by left|done].
    + exfalso. cbn in E. injection E as -> _. apply (Nl a); [by left|done].
    + cbn [app] in E. injection E as -> E. destruct (IH (fun y Hy => Nl y (elem_of_list_further _ _ _ Hy)) l1 E) as [-> ->]; [|done]. intros y Hy. apply N. by right.
  - intros H. apply (H x); [|done]. apply elem_of_app. right. by left.
Qed.
Lemma none_shown h ls K : lacks K (map (shows h) ls) -> none_of_kind h ls K.
Proof. intros L x Hx. unfold lacks in L. rewrite Forall_forall in L. apply (L (shows h x)). apply elem_of_list_fmap. by exists x. Qed.
Lemma has_shown h ls K : has K (map (shows h) ls) = true <-> exists l, l ∈ ls /\ kind_of h (Some l) = K.
Proof.
  unfold has. rewrite existsb_exists. split.
  - intros (x & Hx & Kx). apply bool_decide_eq_true in Kx. apply elem_of_list_In, elem_of_list_fmap in Hx as (l & -> & Hl). by exists l.
  - intros (l & Hl & Kl). exists (shows h l). split; [apply elem_of_list_In, elem_of_list_fmap; by exists l|]. by apply bool_decide_eq_true.
Qed.
Lemma blank_lacks K k : K ∈ names -> lacks K (blank k).
Proof. intros H. unfold blank. generalize (lx_names K [c_nl] H). generalize (lx [c_nl]). intros x Hx. induction k as [|k IH]; cbn [repeat]; [apply lacks_nil|]. by rewrite lacks_cons. Qed.
Lemma blank_has K k : kw_kind K -> has K (blank k) = false.
Proof.
  intros H. assert (E : bool_decide (snd (lx [c_nl]) = K) = false) by (destruct H as [-> | ->]; reflexivity).
  unfold blank. revert E. generalize (lx [c_nl]). intros x Hx. induction k as [|k IH]; cbn [repeat]; [done|]. by rewrite has_cons, Hx, IH.
Qed.
Lemma type_answers h sc d k name tps ls xs : decl_ok d -> decl_kind d = $"type" -> decl_after d = type_head (name, KTypeName) tps ++ xs -> scope_kind_of (Some sc) = decl_kind d -> scope_nodes h sc ls ->
  map (shows h) ls = decl_after d ++ blank k ->
  get_type_name h sc = Ok (name, true) /\ get_struct_name h sc = Ok (name, mentions $"struct" d) /\ get_interface_name h sc = Ok (name, mentions $"interface" d).
Proof.
  intros Hok Kd Ea Ks SN Sh. assert (Kt : sc_kind sc = SType) by (rewrite Kd in Ks; exact Ks).
  assert (Tn : get_type_name h sc = Ok (name, true)).
  { pose proof Sh as Sh'. rewrite Ea in Sh'. unfold type_head in Sh'. rewrite <- !app_assoc in Sh'. cbn [app] in Sh'.
    destruct (first_shown h ls [lx $"type"; lx $" "] name KTypeName _ Sh') as [F N].
    { rewrite !lacks_cons. split; [apply lx_names; in_names|]. split; [apply lx_names; in_names|apply lacks_nil]. }
    destruct (C44_type_name h sc ls Kt SN) as [(l & Fl & ->)|[Nk _]]; [by rewrite (F l Fl)|done]. }
  assert (M : forall K, kw_kind K -> has K (map (shows h) ls) = mentions (k_text K) d).
  { intros K H. rewrite Sh, has_app, (blank_has K k H), orb_false_r. unfold mentions. apply hon_has; [done|]. apply decl_hon; [done|done|done|].
    intros code ->. apply (f_equal (fun l : list lexeme => nth 2 (map snd l) KNone)) in Ea. unfold type_head in Ea. cbn [decl_after decl_src app map snd nth] in Ea. revert Ea. knot. }
  assert (Bool : forall b b', (b = true <-> b' = true) -> b = b') by (intros [] []; intuition).
  split; [done|]. split.
  - destruct (C44_struct_name h sc ls Kt SN) as (nm & fd & En & Ec). rewrite Tn in En. injection En as <- <-.
    change ($"struct") with (k_text KStruct). rewrite <- M by (by left). destruct Ec as [[X ->]|[X ->]]; do 2 f_equal; symmetry.
    + by apply has_shown.
    + apply not_true_iff_false. rewrite has_shown. intros (l & Hl & Kl). by apply (X l).
  - destruct (C44_interface_name h sc ls Kt SN) as (nm & fd & En & Ec). rewrite Tn in En. injection En as <- <-.
    change ($"interface") with (k_text KInterface). rewrite <- M by (by right). destruct Ec as [[X ->]|[X ->]]; do 2 f_equal; symmetry.
    + by apply has_shown.
    + apply not_true_iff_false. rewrite has_shown. intros (l & Hl & Kl). by apply (X l).
Qed.

Lemma func_answers h sc recv name tps ps r body note k ls : decl_ok (DFunc recv name tps ps r body note) -> scope_kind_of (Some sc) = $"func" -> scope_nodes h sc ls ->
  map (shows h) ls = decl_after (DFunc recv name tps ps r body note) ++ blank k ->
  get_func_name h sc = Ok (name, true) /\
  match receiver_word recv with
  | Some w => get_method_receiver h sc = Ok (w, true) /\ get_method_name h sc = Ok (name, true)
  | None => (exists s, get_method_receiver h sc = Ok (s, false)) /\ get_method_name h sc = Ok ([], false)
  end.
Proof.
  intros Hok Ks SN Sh. assert (Kf : sc_kind sc = SFunc) by exact Ks. cbn [decl_after] in Sh.
  assert (HK : KFuncName ∈ names) by in_names. assert (HR : KMethodReceiverType ∈ names) by in_names.
  destruct Hok as (Rok & _ & _ & _ & _ & _ & Body & _).
  assert (Sh2 : exists T, map (shows h) ls = (lx $"func" :: lx $" " :: recv_out receiver_pen recv) ++ (name, KFuncName) :: T /\ lacks KMethodReceiverType T).
  { eexists. split; [rewrite Sh; cbn [app]; rewrite <- !app_assoc; cbn [app]; rewrite <- !app_assoc; reflexivity|]. cbn [app].
    rewrite lacks_app. split; [by apply tps_lacks|]. rewrite lacks_app. split; [apply group_lacks; [done|by apply settled_lacks]|].
    rewrite lacks_app. split; [by apply func_after_lacks|]. assert (Lb : lacks KMethodReceiverType (body_out body)).
    { destruct body as [code|]; [|apply lacks_nil]. destruct Body as (_ & Body & _). apply (spelled_names _ _ HR) in Body. rewrite !lacks_app in Body. cbn [body_out].
      rewrite !lacks_cons, lacks_app. split; [by apply lx_names|]. split; [by apply lx_names|]. split; [apply Body|]. rewrite lacks_cons. split; [by apply lx_names|apply lacks_nil]. }
    rewrite lacks_app. split; [done|]. rewrite lacks_app. split; [|by apply blank_lacks].
    destruct note as [c|]; cbn [note_out]; repeat (apply lacks_cons; split); try (by apply lx_names); try apply lacks_nil. discriminate. }
  clear Sh Body. destruct Sh2 as (T & Sh & LT).
  assert (Tn : (forall l, first_of_kind h ls KFuncName l -> text_of h (Some l) = name) /\ ~ none_of_kind h ls KFuncName).
  { apply (first_shown h ls _ _ _ _ Sh). rewrite !lacks_cons. split; [by apply lx_names|]. split; [by apply lx_names|]. destruct recv as [[o t]|]; [|apply lacks_nil]. unfold recv_out. rewrite lacks_app. split.
    - apply parens_lacks; [done|]. by apply settled_lacks.
    - rewrite lacks_cons. split; [by apply lx_names|apply lacks_nil]. }
  destruct Tn as [F N]. split; [destruct (C44_func_name h sc ls Kf SN) as [(l & Fl & ->)|[Nk _]]; [by rewrite (F l Fl)|done]|].
  assert (None_ : none_of_kind h ls KMethodReceiverType -> (exists s, get_method_receiver h sc = Ok (s, false)) /\ get_method_name h sc = Ok ([], false)).
  { intros Nr. split.
    - destruct (C44_method_receiver h sc ls Kf SN) as [(l & (xs & ys & El & Kl & _) & _)|[_ ->]]; [|by eexists]. exfalso. apply (Nr l); [|done]. rewrite El. apply elem_of_app. right. by left.
    - destruct (C44_method_name h sc ls Kf SN) as [[_ ->]|[(l & xs & ys & El & Kl & _) _]]; [done|]. exfalso. apply (Nr l); [|done]. rewrite El. apply elem_of_app. right. by left. }
  destruct recv as [[o t]|]; cbn [receiver_word].
  - destruct Rok as [[_ [Tok _]] Tt].
    assert (B : match (if reads_as_type o t then base_word t else second_word t) with
      | Some w => exists xs ys, (if reads_as_type o t then ty_out receiver_pen t else unnamed receiver_pen t) = xs ++ (w, KMethodReceiverType) :: ys /\ lacks KMethodReceiverType xs
      | None => lacks KMethodReceiverType (if reads_as_type o t then ty_out receiver_pen t else unnamed receiver_pen t) end).
    { destruct (reads_as_type o t); [by apply base_first|]. by apply second_first. }
    assert (Lo : lacks KMethodReceiverType (match o with Some n => [p_name receiver_pen n; lx $" "] | None => [] end)).
    { destruct o as [n|]; [|apply lacks_nil]. rewrite !lacks_cons. split; [by apply now_names|]. split; [by apply lx_names|apply lacks_nil]. }
    destruct (if reads_as_type o t then base_word t else second_word t) as [w|].
    + destruct B as (xs & ys & Et & Lx).
      destruct (first_shown h ls (lx $"func" :: lx $" " :: lx $"(" :: (match o with Some n => [p_name receiver_pen n; lx $" "] | None => [] end) ++ xs) w KMethodReceiverType (ys ++ lx $")" :: lx $" " :: (name, KFuncName) :: T)) as [G1 G2].
      { rewrite Sh. unfold recv_out, in_parens. cbn [ps_out]. rewrite app_nil_r, Et. cbn [app]. rewrite <- !app_assoc. cbn [app]. done. }
      { rewrite !lacks_cons, lacks_app. split; [by apply lx_names|]. split; [by apply lx_names|]. split; [by apply lx_names|]. done. }
      split.
      * destruct (C44_method_receiver h sc ls Kf SN) as [(l & Fl & ->)|[Nk _]]; [by rewrite (G1 l Fl)|done].
      * destruct (C44_method_name h sc ls Kf SN) as [[Nk _]|[_ [(l & Fl & ->)|[Nk _]]]]; [done|by rewrite (F l Fl)|done].
    + apply None_. apply none_shown. rewrite Sh. rewrite lacks_app, !lacks_cons. split; [|split; [discriminate|done]]. split; [by apply lx_names|]. split; [by apply lx_names|].
      unfold recv_out, in_parens. cbn [ps_out]. rewrite app_nil_r. rewrite !lacks_app, !lacks_cons, !lacks_app, !lacks_cons.
      split; [split; [by apply lx_names|]; split; [by split|split; [by apply lx_names|apply lacks_nil]]|]. split; [by apply lx_names|apply lacks_nil].
  - apply None_. apply none_shown. rewrite Sh. rewrite lacks_app, !lacks_cons. split; [|split; [discriminate|done]]. split; [by apply lx_names|]. split; [by apply lx_names|apply lacks_nil].
Qed.
Lemma scope_answers h' sc d k ls : decl_ok d -> scope_kind_of (Some sc) = decl_kind d -> scope_nodes h' sc ls ->
  map (shows h') ls = decl_after d ++ blank k -> answers h' sc d.
Proof.
  intros Hok Ks SN Sh.
  destruct (C44_guarded h' sc) as [Gf Gt].
  destruct d as [recv name tps ps r body note|name tps rows note|name tps rows note|name tps alias t rs note|name tps ps r note|code|kw code|c|c]; cbn [answers].
  - split; [by apply (func_answers h' sc recv name tps ps r body note k ls Hok Ks SN Sh)|]. apply Gt. unfold scope_kind_of in Ks. rewrite Ks. discriminate.
  - split; [apply Gf; unfold scope_kind_of in Ks; rewrite Ks; discriminate|]. by apply (type_answers h' sc _ k name tps ls _ Hok eq_refl eq_refl Ks SN Sh).
  - split; [apply Gf; unfold scope_kind_of in Ks; rewrite Ks; discriminate|]. by apply (type_answers h' sc _ k name tps ls _ Hok eq_refl eq_refl Ks SN Sh).
  - split; [apply Gf; unfold scope_kind_of in Ks; rewrite Ks; discriminate|]. by apply (type_answers h' sc _ k name tps ls _ Hok eq_refl eq_refl Ks SN Sh).
  - split; [apply Gf; unfold scope_kind_of in Ks; rewrite Ks; discriminate|]. by apply (type_answers h' sc _ k name tps ls _ Hok eq_refl eq_refl Ks SN Sh).
  - split; [apply Gf; unfold scope_kind_of in Ks; rewrite Ks; discriminate|]. destruct (C44_type_name h' sc ls Ks SN) as [(l & (xs & ys & El & Kl & _) & _)|[_ ->]]; [|by eexists]. exfalso.
    assert (Nn : none_of_kind h' ls KTypeName).
    { apply none_shown. rewrite Sh. apply spelled_names; [in_names|]. by apply (decl_spelled (DGroup code) k). }
    apply (Nn l); [rewrite El; apply elem_of_app; right; by left|done].
  - destruct Hok as [Hk _]. unfold scope_kind_of in Ks. cbn [decl_kind] in Ks.
    assert (X : kw <> SFunc /\ kw <> SType) by (revert kw Hk Ks Sh; intros kw Hk _ _; revert kw Hk; apply (Forall_forall (fun kw => kw <> SFunc /\ kw <> SType)); in_names).
    split; [apply Gf|apply Gt]; rewrite Ks; apply X.
  - unfold scope_kind_of in Ks. split; [apply Gf|apply Gt]; rewrite Ks; discriminate.
  - unfold scope_kind_of in Ks. split; [apply Gf|apply Gt]; rewrite Ks; discriminate.
Qed.
(** The getters name every declaration correctly. *)
Theorem C75_getters : forall ord h is h' scs, any_order ord -> SpecNode.wf h -> file_ok is ->
  parse_scope ord h 0 (file_text is) = Ok (h', scs) -> Forall2 (fun i sc => answers h' sc (fst i)) is scs.
Proof.
  intros ord h is h' scs O W F E. destruct (C59_parse_total ord h 0 (file_text is) O W) as [vs P]. pose proof P as (h2 & scs2 & E2 & V). rewrite E in E2. injection E2 as <- <-.
  destruct (C75_parse ord h is vs O W F P) as [Sh _]. clear P E. revert is Sh F. induction V as [|sc v scs vs V Vs IH]; intros [|i is] Sh F; try done.
  cbn [map] in Sh. assert (S1 : shape v = item_shape i) by congruence. assert (S2 : map shape vs = map item_shape is) by congruence. clear Sh. apply Forall_cons in F as [Hok F].
  constructor; [|by apply IH]. clear IH F S2 Vs is vs scs. destruct V as (ls & C & Hd & ->). assert (SN : scope_nodes h' sc ls) by (split; [done|by exists []]).
  destruct i as [d k]. unfold shape, item_shape in S1. cbn [fst snd] in S1, Hok |- *. rewrite map_map in S1.
  assert (Ks : scope_kind_of (Some sc) = decl_kind d) by congruence. assert (Sh : map (shows h') ls = decl_after d ++ blank k) by (change (map (fun x => text_kind (pay h' x)) ls = decl_after d ++ blank k); congruence). clear S1. by apply (scope_answers h' sc d k ls).
Qed.

(** ** A file *)
Definition ex_raw (s : str) : str := [c_bq] ++ s ++ [c_bq].
Definition ex_nl : str := [c_nl]. Definition ex_tab : str := [c_tab].
Definition ex_file : list item :=
 [(DOther $"package" (shown $" a"), 1);
  (DOther $"import" (shown ($" (" ++ ex_nl ++ ex_tab ++ $"""fmt""" ++ ex_nl ++ $")")), 1);
  (DLineComment $" T is a type", 0);
  (DStruct $"T" (map fst (shown $"K comparable, V any"))
    [CommentRow $" c";
     FieldRow $"a" [$"b"; $"typ"] 2 (TMap $"map" (TWord $"K") (TSlice (TWord $"*T"))) PNil (Some (0, ex_raw $"json")) (Some (1, $" note"));
     FieldRow $"f" [] 0 (TFuncR (PCons (Some $"x") (TGeneric $"List" (PCons None (TWord $"K") PNil)) (PCons (Some $"fs") (TFuncR (PCons None (TSlice (TWord $"byte")) (PCons None (TWord $"T") PNil)) (TWord $"error")) PNil)) (TWord $"error")) PNil None None;
     FieldRow $"n" [] 0 (TArray $"N" (TChan $"chan" (TEmpty $"struct"))) PNil None (Some (0, $"")); BlankRow; EmbedRow (TWord $"*E") None None; EmbedRow (TWord $"F") (Some (0, $"`e`")) None; EmbedRow (TWord $"sync.Mutex") None (Some (0, $" guards")); EmbedRow (TGeneric $"E" (PCons None (TWord $"K") (PCons None (TSlice (TWord $"int")) PNil))) None None;
     OpenRow $"o" [$"q"] 1 [HSlice; HMap $"map" (TWord $"K")] $"struct"; FieldRow $"n" [] 0 (TWord $"T") PNil None None; OpenRow $"m" [] 0 [] $"*struct"; BlankRow; CommentRow $" in"; CloseRow None None; CloseRow (Some (0, $"`o`")) (Some (0, $" o"));
     FieldRow $"c" [] 1 (TPrefix $"*" (TSlice (TChan $"<-chan" (TMap $"*map" (TArray $"2" (TWord $"int")) (TGeneric $"*Pair" (PCons None (TMap $"map" (TWord $"string") (TEmpty $"*struct")) (PCons None (TWord $"*V") PNil))))))) PNil None None] None, 2);
  (DInterface $"I" []
    [IMethod $"M" (Flat (PCons (Some $"x") (TMap $"map" (TWord $"string") (TEmpty $"interface")) PNil)) (ROne (TSlice (TWord $"byte"))) (Some $" c");
     IMethod $"N" (Flat PNil) (RMany (Flat (PCons None (TWord $"int") (PCons None (TWord $"error") PNil)))) None; IElems $"io.Reader" [] None; IElems $"~int" [$" "; $"|"; $" "; $"M"; $"["; $"K"; $","; $" "; $"V"; $"]"] (Some $" union"); IComment $"x"; IBlank; IMethod $"P" (Flat PNil) RNone None] None, 1);
  (DType $"A" [] true (TWord $"B") PNil None, 0);
  (DType $"A" (map fst (shown $"K ~[]any, V interface{ M(x int) }")) false (TMap $"map" (TWord $"K") (TArray $"3" (TGeneric $"B" (PCons None (TWord $"K") (PCons None (TMap $"map" (TWord $"K") (TWord $"int")) PNil))))) PNil None, 0);
  (DType $"A" [] false (TMap $"map" (TWord $"K") (TEmpty $"struct")) PNil None, 0);
  (DType $"A" [] false (TChan $"<-chan" (TSlice (TWord $"K"))) PNil None, 0);
  (DType $"A" [] false (TSlice (TFuncR (PCons (Some $"a") (TWord $"B") PNil) (TMap $"map" (TWord $"K") (TWord $"int")))) PNil None, 0);
  (DFuncType $"F" [] (Flat (PCons (Some $"a") (TWord $"B") PNil)) (ROne (TSlice (TWord $"byte"))) None, 1);
  (DFuncType $"F" [] (Flat (PCons (Some $"a") (TWord $"B") PNil)) (RMany (Flat (PCons (Some $"x") (TWord $"B") (PCons None (TWord $"error") PNil)))) None, 1);
  (DGroup (shown (ex_tab ++ $"A int" ++ ex_nl ++ ex_tab ++ $"B struct {" ++ ex_nl ++ ex_tab ++ ex_tab ++ $"x int" ++ ex_nl ++ ex_tab ++ $"}" ++ ex_nl)), 1);
  (DFunc (Some (Some $"t", TWord $"*T")) $"Do" [] (Flat (PCons (Some $"a") (TWord $"A") (PCons (Some $"variable") (TEmpty $"interface") (PCons (Some $"g") (TFuncR (PCons None (TSlice (TWord $"byte")) PNil) (TFuncR PNil (TChan $"chan<-" (TEmpty $"struct")))) (PCons (Some $"xs") (TEmpty $"...interface") PNil))))) (ROne (TGeneric $"List" (PCons None (TSlice (TWord $"K")) PNil)))
    (Some (shown (ex_nl ++ ex_tab ++ $"x := f(func(a int) { return ""}"" })" ++ ex_nl ++ ex_tab ++ $"var y = `a" ++ ex_nl ++ $"func` // c" ++ ex_nl))) None, 1);
  (DFunc (Some (Some $"p", TGeneric $"*Pair" (PCons None (TWord $"K") (PCons None (TWord $"V") PNil)))) $"Do" [] (Flat (PCons (Some $"xs") (TPrefix $"..." (TSlice (TWord $"V"))) PNil)) (ROne (TPrefix $"*" (TSlice (TWord $"V")))) (Some []) None, 1);
  (DFunc (Some (None, TWord $"T")) $"Do" [] (Flat (PCons (Some $"a") (TWord $"A") PNil)) (RMany (Flat (PCons (Some $"typ") (TWord $"A") PNil))) (Some []) None, 1);
  (DFunc None $"do" (map fst (shown $"K, V ~int | ~string")) (Flat PNil) RNone (Some (shown (ex_nl ++ $"return 1" ++ ex_nl))) None, 1);
  (DFunc None $"many" []
    (Rows 0 [(PCons (Some $"a") (TWord $"int") (PCons (Some $"f") (TFuncR PNil (TWord $"B")) PNil), Some $" the first, f(x)"); (PCons (Some $"variable") (TSlice (TWord $"T")) PNil, None)])
    (RMany (Rows 0 [(PCons (Some $"x") (TFuncR PNil (TWord $"B")) PNil, None); (PCons (Some $"err") (TWord $"error") PNil, Some $"")])) (Some (shown (ex_nl ++ ex_tab ++ $"return" ++ ex_nl))) None, 1);
  (DFunc (Some (Some $"t", TWord $"*T")) $"Many" [] (Rows 0 [(PCons None (TWord $"int") PNil, None); (PCons None (TFunc PNil) PNil, None)]) (RMany (Flat (PCons None (TWord $"int") (PCons None (TFunc PNil) PNil)))) (Some []) None, 0);
  (DFuncType $"F" [] (Rows 0 [(PCons (Some $"a") (TWord $"B") PNil, Some $" a")]) (RMany (Flat (PCons (Some $"x") (TWord $"B") PNil))) None, 1);
  (DInterface $"I" [] [IMethod $"M" (Rows 1 [(PCons (Some $"x") (TWord $"X") PNil, Some $" x"); (PCons (Some $"y") (TWord $"Y") PNil, None)]) (ROne (TWord $"error")) (Some $" c"); IMethod $"N" (Flat PNil) (RMany (Rows 1 [(PCons None (TWord $"int") PNil, None)])) None] None, 1);
  (DFunc (Some (Some $"t", TWord $"*T")) $"All" [] (Flat PNil) (ROne (TMap $"map" (TWord $"K") (TSlice (TEmpty $"interface")))) (Some (shown (ex_nl ++ ex_tab ++ $"return t.all()" ++ ex_nl))) None, 1);
  (DFunc None $"with" [] (Flat (PCons (Some $"v") (TWord $"V") PNil)) (ROne (TFuncR (PCons (Some $"o") (TWord $"*Options") (PCons (Some $"f") (TEmpty $"struct") PNil)) (TChan $"<-chan" (TFuncR PNil (TMap $"map" (TGeneric $"P" (PCons None (TWord $"A") (PCons None (TWord $"B") PNil))) (TEmpty $"struct")))))) (Some []) None, 1);
  (DInterface $"J" [] [IMethod $"M" (Flat PNil) (ROne (TMap $"map" (TWord $"string") (TEmpty $"struct"))) None; IMethod $"N" (Flat PNil) (ROne (TChan $"chan" (TFunc (PCons (Some $"a") (TWord $"A") PNil)))) (Some $" n")] None, 1);
  (DFunc (Some (Some $"_", TWord $"*T")) $"Get" [] (Flat (PCons None (TWord $"K") (PCons (Some $"_") (TSlice (TWord $"V")) (PCons None (TMap $"map" (TWord $"K") (TFuncR (PCons None (TGeneric $"P" (PCons None (TWord $"V") PNil)) PNil) (TWord $"V"))) PNil))))
    (RMany (Flat (PCons None (TSlice (TWord $"V")) (PCons None (TChan $"<-chan" (TWord $"V")) (PCons None (TWord $"error") PNil))))) (Some []) None, 0);
  (DFunc (Some (None, TGeneric $"*List" (PCons None (TWord $"V") PNil))) $"Len" [] (Flat PNil) (ROne (TWord $"int")) (Some []) None, 1);
  (DStruct $"U" [] [FieldRow $"_" [] 0 (TSlice (TWord $"T")) PNil None None; FieldRow $"f" [] 0 (TFunc (PCons None (TSlice (TWord $"T")) PNil)) PNil None None; OpenRow $"_" [] 0 [] $"struct"; CloseRow None None] None, 1);
  (DType $"N" [] false (TWord $"pkg.T") PNil (Some $" named"), 0);
  (DType $"N" [] true (TSlice (TMap $"map" (TWord $"K") (TWord $"int"))) PNil (Some $" basic"), 0);
  (DFuncType $"G" [] (Flat (PCons (Some $"a") (TWord $"A") PNil)) (ROne (TChan $"<-chan" (TWord $"R"))) (Some $" g"), 0);
  (DFuncType $"G" [] (Flat PNil) (ROne (TMap $"map" (TWord $"K") (TFuncR (PCons (Some $"x") (TWord $"X") PNil) (TGeneric $"Y" (PCons None (TWord $"Z") PNil))))) None, 0);
  (DFuncType $"G" [] (Flat PNil) RNone (Some $""), 1);
  (DFunc None $"asm" [] (Flat (PCons (Some $"x") (TWord $"X") PNil)) (ROne (TWord $"Y")) None (Some $" in assembly"), 0);
  (DFunc None $"asm" [] (Flat PNil) RNone None None, 0);
  (DFunc None $"end" [] (Flat PNil) RNone (Some (shown $" return ")) (Some $" end"), 1);
  (DStruct $"S" [] [] (Some $" S"), 0);
  (DInterface $"S" [] [IMethod $"M" (Flat PNil) RNone None] (Some $" S"), 1);
  (DStruct $"V" [] [FieldRow $"f" [$"g"] 0 (TFunc (PCons (Some $"a") (TWord $"A") PNil)) (PCons None (TSlice (TWord $"B")) (PCons None (TWord $"error") PNil)) (Some (0, $"`f`")) None;
    FieldRow $"hs" [] 1 (TMap $"map" (TWord $"string") (TFuncR PNil (TFunc (PCons None (TWord $"C") PNil)))) (PCons (Some $"x") (TGeneric $"List" (PCons None (TWord $"K") PNil)) (PCons (Some $"_") (TWord $"E") PNil)) None (Some (0, $" hs"))] None, 0);
  (DFunc None $"each" [] (Flat (PCons (Some $"a") (TWord $"A") PNil)) (RFunc (TFuncR (PCons (Some $"b") (TWord $"B") PNil) (TChan $"<-chan" (TFunc PNil))) (PCons (Some $"c") (TWord $"C") (PCons (Some $"d") (TSlice (TWord $"D")) PNil))) (Some []) None, 0);
  (DInterface $"V" [] [IMethod $"M" (Flat PNil) (RFunc (TFunc (PCons None (TWord $"A") PNil)) (PCons None (TWord $"int") (PCons None (TWord $"error") PNil))) (Some $" m"); IElems $"T" [] None] None, 0);
  (DFuncType $"V" [] (Flat PNil) (RFunc (TSlice (TFunc (PCons (Some $"a") (TWord $"A") PNil))) (PCons None (TWord $"B") (PCons None (TWord $"error") PNil))) (Some $" v"), 1);
  (DType $"W" [] true (TSlice (TFunc (PCons (Some $"a") (TWord $"A") PNil))) (PCons None (TWord $"B") (PCons None (TWord $"error") PNil)) (Some $" w"), 0);
  (DType $"X" [] false (TMap $"map" (TWord $"K") (TFuncR PNil (TChan $"<-chan" (TFunc PNil)))) (PCons (Some $"c") (TWord $"C") (PCons (Some $"d") (TSlice (TWord $"D")) PNil)) None, 1);
  (DBlockComment ($"/* a" ++ ex_nl ++ $" b */"), 0);
  (DFunc (Some (Some $"t", TWord $"*T")) $"each" [] (Calls (PCons (Some $"x") (TWord $"int") PNil) (Some $"hooks") $"...func" (PCons (Some $"n") (TWord $"*Node") (PCons (Some $"b") (TSlice (TWord $"B")) PNil)) (PCons None (TWord $"C") (PCons None (TWord $"error") PNil)))
    (ROne (TWord $"*R")) (Some []) None, 0);
  (DFunc None $"run" [] (Calls PNil (Some $"fs") $"...func" PNil PNil) (RMany (Flat (PCons None (TWord $"A") (PCons None (TWord $"error") PNil)))) (Some []) None, 0);
  (DInterface $"Y" [] [IMethod $"M" (Calls (PCons None (TWord $"A") PNil) None $"...func" (PCons None (TWord $"B") PNil) PNil) (ROne (TWord $"error")) (Some $" m")] None, 0);
  (DFuncType $"Z" [] (Calls PNil (Some $"fs") $"...func" (PCons (Some $"a") (TWord $"A") PNil) (PCons (Some $"b") (TWord $"B") (PCons (Some $"c") (TWord $"C") PNil))) (RMany (Flat (PCons None (TWord $"D") PNil))) None, 1);
  (DFunc (Some (Some $"n", TWord $"*Node")) $"find" [] (CallRows 0 [(PCons (Some $"t") (TSlice (TWord $"Kind")) PNil, Some $" targets"); (PCons (Some $"a") (TWord $"A") (PCons (Some $"b") (TWord $"B") PNil), None)]
      (Some $"hooks") $"...func" (PCons None (TWord $"*Node") PNil) (PCons None (TWord $"C") (PCons None (TWord $"error") PNil)) (Some $" hooks")) (ROne (TWord $"*Node")) (Some (shown (ex_nl ++ ex_tab ++ $"return n" ++ ex_nl))) None, 0);
  (DFunc None $"each" [] (CallRows 0 [] None $"...func" PNil PNil None) (RMany (Flat (PCons (Some $"x") (TWord $"X") (PCons (Some $"err") (TWord $"error") PNil)))) (Some []) (Some $" each"), 1)].
Example C75_file_ok : file_ok ex_file.
Proof. apply (forallb_ok (fun i => decl_okb (fst i))); [intros [d k]; apply decl_okb_ok|]. vm_compute. reflexivity. Qed.
(** The results of [with]: what is joined, and what is not.  And [J] is no struct,
    although one of its methods has a result with this keyword. *)
Example C75_single_result : match ex_file !! 22 with Some (DFunc _ _ _ _ r _ _, _) =>
  spelling (res_src r) = $" func(o *Options, f struct{}) <-chan func() map[P[A, B]]struct{}" /\
  res_after r = [lx $" "; lx $"func"; lx $"("; ($"o", KParamName); lx $" "; ($"*Options", KParamType); lx $","; lx $" "; ($"f", KParamName); lx $" "; lx $"struct"; lx $"{"; lx $"}"; lx $")"; lx $" ";
    ($"<-chan", KParamType); lx $" "; lx $"func"; lx $"("; lx $")"; lx $" "; ($"map[P[A,", KParamType); lx $" "; ($"B]]struct", KParamType); lx $"{"; lx $"}"] | _ => False end.
Proof. vm_compute. split; reflexivity. Qed.
Example C75_no_struct : match ex_file !! 23 with Some (d, _) => mentions $"struct" d = false /\ mentions $"interface" d = true | _ => False end.
Proof. vm_compute. split; reflexivity. Qed.
(** Parameters and results without names: the first identifier of a type is taken
    for a name, so the receivers of these methods are not found. *)
Example C75_unnamed : match ex_file !! 24, ex_file !! 25 with Some ((DFunc recv _ _ ps r _ _) as d, _), Some (DFunc recv2 _ _ _ _ _ _, _) =>
  spelling (decl_src d) = $"func (_ *T) Get(K, _ []V, map[K]func(P[V]) V) ([]V, <-chan V, error) {}" ++ ex_nl /\
  recv_out receiver_pen recv = [lx $"("; lx $"_"; lx $" "; ($"*T", KMethodReceiverName); lx $")"; lx $" "] /\ receiver_word recv = None /\ receiver_word recv2 = None /\
  group_out param_pen ps = [lx $"("; ($"K", KParamType); lx $","; lx $" "; lx $"_"; lx $" "; lx $"["; lx $"]"; ($"V", KParamName); lx $","; lx $" ";
    lx $"map"; lx $"["; ($"K", KRaw); lx $"]"; lx $"func"; lx $"("; ($"P", KParamName); lx $"["; ($"V", KRaw); lx $"]"; lx $")"; lx $" "; ($"V", KParamName); lx $")"] /\
  res_after r = [lx $" "; lx $"("; lx $"["; lx $"]"; ($"V", KParamName); lx $","; lx $" "; ($"<-chan", KParamName); lx $" "; ($"V", KParamType); lx $","; lx $" "; ($"error", KParamType); lx $")"]
  | _, _ => False end.
Proof. eapply bool_decide_unpack. vm_compute. exact Logic.I. Qed.
(** Function types with several results. *)
Example C75_several : match ex_file !! 37, ex_file !! 38, ex_file !! 40 with Some (DStruct _ _ (r :: _) _, _), Some (DFunc _ _ _ _ r2 _ _, _), Some (DFuncType _ _ _ r3 _, _) =>
  spelling (srow_out source 1 r) = ex_tab ++ $"f, g func(a A) ([]B, error) `f`" ++ ex_nl /\
  srow_out field_pen 1 r = [lx ex_tab; ($"f", KParamName); lx $","; lx $" "; ($"g", KParamName); lx $" "; lx $"func"; lx $"("; ($"a", KParamName); lx $" "; ($"A", KParamType); lx $")"; lx $" ";
    lx $"("; lx $"["; lx $"]"; ($"B", KParamType); lx $","; lx $" "; ($"error", KParamType); lx $")"; lx $" "; ($"`f`", KString); lx ex_nl] /\
  spelling (res_src r2) = $" func(b B) <-chan func() (c C, d []D)" /\
  drop 7 (res_after r2) = [lx $" "; ($"<-chan", KParamType); lx $" "; lx $"func"; lx $"("; lx $")"; lx $" "; lx $"("; ($"c", KParamName); lx $" "; ($"C", KParamType); lx $","; lx $" "; ($"d", KParamName); lx $" "; lx $"["; lx $"]"; ($"D", KParamType); lx $")"] /\
  spelling (res_src r3) = $" []func(a A) (B, error)" /\
  fres_after r3 = [lx $" "; lx $"["; lx $"]"; lx $"func"; lx $"("; ($"a", KParamName); lx $" "; ($"A", KParamType); lx $")"; lx $" "; lx $"("; ($"B", KParamType); lx $","; lx $" "; ($"error", KParamType); lx $")"]
  | _, _, _ => False end.
Proof. eapply bool_decide_unpack. vm_compute. exact Logic.I. Qed.
(** Declared types that end with such a function type. *)
Example C75_several_declared : match ex_file !! 41, ex_file !! 42 with Some (d, _), Some (d2, _) =>
  spelling (decl_src d) = $"type W = []func(a A) (B, error) // w" ++ ex_nl /\
  drop 6 (decl_after d) = [lx $"["; lx $"]"; lx $"func"; lx $"("; ($"a", KParamName); lx $" "; ($"A", KParamType); lx $")"; lx $" ";
    lx $"("; ($"B", KParamType); lx $","; lx $" "; ($"error", KParamType); lx $")"; lx $" "; ($"// w", KComment); lx ex_nl] /\
  spelling (decl_src d2) = $"type X map[K]func() <-chan func() (c C, d []D)" ++ ex_nl /\
  drop 11 (decl_after d2) = [lx $" "; ($"<-chan", KFuncName); lx $" "; lx $"func"; lx $"("; lx $")"; lx $" ";
    lx $"("; ($"c", KParamName); lx $" "; ($"C", KParamType); lx $","; lx $" "; ($"d", KParamName); lx $" "; lx $"["; lx $"]"; ($"D", KParamType); lx $")"; lx ex_nl]
  | _, _ => False end.
Proof. eapply bool_decide_unpack. vm_compute. exact Logic.I. Qed.
(** A last parameter [...func(…)]: its word is a parameter type (or, without a name,
    a parameter name), its first parameter stays a type, and its results have no names. *)
Example C75_variadic : match ex_file !! 44, ex_file !! 45, ex_file !! 46, ex_file !! 47 with
    Some ((DFunc _ _ _ g r _ _) as d, _), Some (DFunc _ _ _ g2 r2 _ _, _), Some (DInterface _ _ (r3 :: _) _, _), Some ((DFuncType _ _ _ _ _) as d4, _) =>
  spelling (decl_src d) = $"func (t *T) each(x int, hooks ...func(n *Node, b []B) (C, error)) *R {}" ++ ex_nl /\
  group_out param_pen g = [lx $"("; ($"x", KParamName); lx $" "; ($"int", KBasic); lx $","; lx $" "; ($"hooks", KParamName); lx $" "; ($"...func", KParamType); lx $"(";
    ($"n", KParamType); lx $" "; ($"*Node", KParamType); lx $","; lx $" "; ($"b", KParamName); lx $" "; lx $"["; lx $"]"; ($"B", KParamType); lx $")"; lx $" ";
    lx $"("; ($"C", KParamType); lx $","; lx $" "; ($"error", KParamType); lx $")"; lx $")"] /\ res_after r = [lx $" "; ($"*R", KParamType)] /\
  spelling (group_out source g2 ++ res_src r2) = $"(fs ...func()) (A, error)" /\
  group_out param_pen g2 ++ res_after r2 = [lx $"("; ($"fs", KParamName); lx $" "; ($"...func", KParamType); lx $"("; lx $")"; lx $")"; lx $" "; lx $"("; ($"A", KParamType); lx $","; lx $" "; ($"error", KParamType); lx $")"] /\
  spelling (irow_src r3) = ex_tab ++ $"M(A, ...func(B)) error // m" ++ ex_nl /\
  drop 1 (irow_after r3) = [($"M", KFuncName); lx $"("; ($"A", KParamType); lx $","; lx $" "; ($"...func", KParamName); lx $"("; ($"B", KParamType); lx $")"; lx $")"; lx $" "; ($"error", KParamType); lx $" "; ($"// m", KComment); lx ex_nl] /\
  spelling (decl_src d4) = $"type Z func(fs ...func(a A) (b B, c C)) (D)" ++ ex_nl /\
  drop 4 (decl_after d4) = [lx $"func"; lx $"("; ($"fs", KParamName); lx $" "; ($"...func", KParamType); lx $"("; ($"a", KParamType); lx $" "; ($"A", KParamType); lx $")"; lx $" ";
    lx $"("; ($"b", KParamName); lx $" "; ($"B", KParamType); lx $","; lx $" "; ($"c", KParamName); lx $" "; ($"C", KParamType); lx $")"; lx $")"; lx $" "; lx $"("; ($"D", KParamType); lx $")"; lx ex_nl]
  | _, _, _, _ => False end.
Proof. eapply bool_decide_unpack. vm_compute. exact Logic.I. Qed.
(** On a line of its own: the results of the function are not found. *)
Example C75_variadic_row : match ex_file !! 48, ex_file !! 49 with Some ((DFunc _ _ _ g r _ _) as d, _), Some ((DFunc _ _ _ g2 r2 _ _) as d2, _) =>
  firstn 106 (spelling (decl_src d)) = $"func (n *Node) find(" ++ ex_nl ++ ex_tab ++ $"t []Kind, // targets" ++ ex_nl ++ ex_tab ++ $"a A, b B," ++ ex_nl ++ ex_tab ++ $"hooks ...func(*Node) (C, error), // hooks" ++ ex_nl ++ $") *Node {" /\
  drop 23 (group_out param_pen g) ++ func_after g r = [lx ex_tab; ($"hooks", KParamName); lx $" "; ($"...func", KParamType); lx $"("; ($"*Node", KParamType); lx $")"; lx $" ";
    lx $"("; ($"C", KParamType); lx $","; lx $" "; ($"error", KParamType); lx $")"; lx $","; lx $" "; ($"// hooks", KComment); lx ex_nl; lx $")"; lx $" "; ($"*Node", KRaw)] /\
  spelling (decl_src d2) = $"func each(" ++ ex_nl ++ ex_tab ++ $"...func()," ++ ex_nl ++ $") (x X, err error) {} // each" ++ ex_nl /\
  drop 3 (decl_after d2) = [lx $"("; lx ex_nl; lx ex_tab; ($"...func", KParamName); lx $"("; lx $")"; lx $","; lx ex_nl; lx $")"; lx $" ";
    lx $"("; ($"x", KRaw); lx $" "; ($"X", KRaw); lx $","; lx $" "; ($"err", KRaw); lx $" "; ($"error", KRaw); lx $")"; lx $" "; lx $"{"; lx $"}"; lx $" "; ($"// each", KComment); lx ex_nl]
  | _, _ => False end.
Proof. eapply bool_decide_unpack. vm_compute. exact Logic.I. Qed.
(** The result of a function type, and a type with a comment after it. *)
Example C75_first_named : match ex_file !! 27, ex_file !! 30 with Some (d, _), Some (DFuncType _ _ _ (ROne t) _, _) =>
  spelling (decl_src d) = $"type N pkg.T // named" ++ ex_nl /\ drop 4 (decl_after d) = [($"pkg.T ", KParamType); ($"// named", KComment); lx ex_nl] /\
  spelling (ty_out source t) = $"map[K]func(x X) Y[Z]" /\
  named_first t = [lx $"map"; lx $"["; lx $"K"; lx $"]"; lx $"func"; lx $"("; ($"x", KParamName); lx $" "; ($"X", KParamType); lx $")"; lx $" "; ($"Y", KFuncName); lx $"["; lx $"Z"; lx $"]"]
  | _, _ => False end.
Proof. eapply bool_decide_unpack. vm_compute. exact Logic.I. Qed.
Example C75_file_text : firstn 54 (file_text ex_file) = $"package a" ++ ex_nl ++ ex_nl ++ $"import (" ++ ex_nl ++ ex_tab ++ $"""fmt""" ++ ex_nl ++ $")" ++ ex_nl ++ ex_nl ++ $"// T is a type" ++ ex_nl ++ $"type T[K ".
Proof. vm_compute. reflexivity. Qed.
(** The restrictions on declarations are needed: a result like []func(a T) is torn
    apart.  A parameter of a function type with several results ends the parameters:
    what follows is taken for results, and the parenthesis joined to a type.  After parameters in several lines, a function type at the beginning of the results starts a new scope, and so does
    a name that begins like a keyword. *)
Definition kinds_of (s : str) : list (list lexeme) :=
  match parse_scope src_ord [] 0 s with
  | Ok (h, scs) => map (fun sc => map (shows h) (follow (Datatypes.S (length h)) (fun l => next_of h (Some l)) (sc_node sc))) scs
  | _ => [] end.
(** That names are marked as names and types as types is false: after [_] a type is
    taken for a name, and so is a type without a name that is more than a word, and
    the method's receiver is then not found; of two names that share a type, the
    first is taken for a type; the result of a function type that is declared is
    taken for the name of a function; the names of results in a struct are taken for
    types. *)
Theorem C75_names_and_types_refuted :
  ($"T", KParamName) ∈ concat (kinds_of ($"func f(_ T) {}" ++ ex_nl)) /\
  ($"T", KParamName) ∈ concat (kinds_of ($"func f() ([]T, error) {}" ++ ex_nl)) /\
  ($"*T", KMethodReceiverName) ∈ concat (kinds_of ($"func (_ *T) f() {}" ++ ex_nl)) /\
  ($"a", KParamType) ∈ concat (kinds_of ($"func f(a, b T) {}" ++ ex_nl)) /\
  ($"T", KFuncName) ∈ concat (kinds_of ($"type F func() T" ++ ex_nl)) /\
  ($"x", KParamType) ∈ concat (kinds_of ($"type S struct {" ++ ex_nl ++ ex_tab ++ $"f func() (x X, err error)" ++ ex_nl ++ $"}" ++ ex_nl)).
Proof. eapply bool_decide_unpack. vm_compute. exact Logic.I. Qed.
Theorem C75_restrictions_refuted :
  ($"[]func(a", KParamType) ∈ concat (kinds_of ($"func f() []func(a T) {}" ++ ex_nl)) /\
  ($"x", KParamType) ∈ concat (kinds_of ($"func f(g func() (A, B), x X) {}" ++ ex_nl)) /\
  ($"X)", KParamType) ∈ concat (kinds_of ($"func f(g func() (A, B), x X) {}" ++ ex_nl)) /\
  map head (kinds_of ($"func f(" ++ ex_nl ++ ex_tab ++ $"a int," ++ ex_nl ++ $") (func(), error) {}" ++ ex_nl)) = [Some (lx $"func"); Some (lx $"func")] /\
  map head (kinds_of ($"func f(" ++ ex_nl ++ ex_tab ++ $"a int," ++ ex_nl ++ $") (variable T) {}" ++ ex_nl)) = [Some (lx $"func"); Some ($"variable", KRaw)].
Proof. eapply bool_decide_unpack. vm_compute. exact Logic.I. Qed.
