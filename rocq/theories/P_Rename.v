(** C68: renaming a declaration. *)
From Verif Require Import SpecRename SpecEdit NodeProofs NodeInv NodeChain NodeHist NodeFinal Scope Ast SpecScope SpecText SpecLex ResetSpec LexSpecProofs PureProofs HeaderProofs PrefixProofs LocalProofs P_Node P_Scope P_Ast P_Text P_Lex P_Get P_Local P_Edit Conc.

Lemma text_at_pay h ls : text_at h ls = concat (tok_texts (map (pay h) ls)).
Proof. unfold text_at, tok_texts. by rewrite map_map. Qed.
Lemma sheet_views h scs lss vs : document h (map Some scs) (map (pair []) lss) -> Forall2 (viewed h) scs vs ->
  Forall2 (fun ls v => map (pay h) ls = snd v) lss vs.
Proof.
  intros (_ & F & _) V. revert lss F. induction V as [|sc v scs vs V _ IH]; intros lss F.
  - destruct lss; [constructor|]. inversion F.
  - destruct lss as [|ls lss]; [inversion F|]. cbn [map] in F. apply Forall2_cons in F as [(s' & Es & Eh & Ne & C) F]. injection Es as <-. cbn [fst snd app] in *.
    constructor; [|by apply IH]. destruct V as (cur & Cc & Hc & ->). cbn [snd]. f_equal.
    destruct ls as [|x ls]; [done|]. cbn [head hd_error] in Eh. destruct cur as [|y cur]; [cbn in Hc; congruence|]. assert (y = x) as -> by (cbn in Hc; congruence).
    by apply (chain_unique h _ _ x C Cc); left.
Qed.
Lemma written_views h lss vs : Forall2 (fun ls v => map (pay h) ls = snd v) lss vs -> written h (map (pair []) lss) = concat (map view_text vs).
Proof.
  intros F. unfold written. rewrite map_map. cbn [snd]. induction F as [|ls v lss vs E _ IH]; [done|]. cbn [map concat]. rewrite IH. f_equal. unfold view_text. by rewrite text_at_pay, E.
Qed.
(** The header of a declaration. *)
Lemma header_view kw kk nk ord h name rest vs : any_order ord -> SpecNode.wf h ->
  (kw, kk, nk) ∈ [($"func", KFunc, KFuncName); ($"type", KType, KTypeName)] ->
  plain_word name -> kind_new name = KRaw -> word_ends rest ->
  parses_to ord h 0 (kw ++ $" " ++ name ++ rest) vs ->
  exists ln m0 m1 m2 b vs', vs = (ln, kw, (m0, kw, kk) :: (m1, [c_sp], KSpace) :: (m2, name, nk) :: b) :: vs'.
Proof.
  intros O W Hk PW Kn WE (h' & scs & E & V).
  assert (G : exists sc scs' cur, scs = sc :: scs' /\ sc_kind sc = kw /\ scope_nodes h' sc cur /\
    forall i t k, map fst [(kw, kk); ([c_sp], KSpace); (name, KRaw)] !! i = Some t -> [kk; KSpace; nk] !! i = Some k -> exists l, cur !! i = Some l /\ kind_of h' (Some l) = k /\ text_of h' (Some l) = t).
  { assert (L : plain_word kw -> kind_new kw = kk -> lexes (kw ++ $" " ++ name ++ rest) [(kw, kk); ([c_sp], KSpace); (name, KRaw)] rest).
    { intros P K. apply (lx_cons _ _ _ (c_sp :: name ++ rest)).
      - apply kw_token; [done|apply ends_sep, sep_in; reflexivity|done].
      - eapply lx_cons; [apply (sep_token c_sp), sep_in; reflexivity|]. apply lexes_one. by apply kw_token. }
    apply elem_of_cons in Hk as [Hk|Hk]; [|apply elem_of_cons in Hk as [Hk|Hk]; [|by apply elem_of_nil in Hk]]; injection Hk as -> -> ->.
    - specialize (L ltac:(by apply plain_check) eq_refl).
      destruct (header_result ord h 0 _ _ _ _ _ false [KFunc; KSpace; KFuncName] never h' scs O W ltac:(done) L) as (sc & scs' & cur & -> & Ks & SN & P & Nr);
        [exists $"func"; split; [apply (proj1 (bool_decide_eq_true ($"func" ∈ scope_keywords))); reflexivity|done]|
         repeat constructor; cbn [fst]; by apply plain_no_nl|done| |exact never_mono|by intros ? ? ?|exact E|].
      { intros g Lg. destruct g as [|a [|b [|c g]]]; cbn [length] in Lg; try lia. apply run_func. }
      exists sc, scs', cur. split; [done|]. split; [exact Ks|]. by split.
    - specialize (L ltac:(by apply plain_check) eq_refl).
      destruct (header_result ord h 0 _ _ _ _ _ true [KType; KSpace; KTypeName] never h' scs O W ltac:(done) L) as (sc & scs' & cur & -> & Ks & SN & P & Nr);
        [exists $"type"; split; [apply (proj1 (bool_decide_eq_true ($"type" ∈ scope_keywords))); reflexivity|done]|
         repeat constructor; cbn [fst]; by apply plain_no_nl|done| |exact never_mono|by intros ? ? ?|exact E|].
      { intros g Lg. destruct g as [|a [|b [|c g]]]; cbn [length] in Lg; try lia. apply run_type. }
      exists sc, scs', cur. split; [done|]. split; [exact Ks|]. by split. }
  destruct G as (sc & scs' & cur & -> & Ks & (Hn & bf & Cb) & P). inversion V as [|? v ? vs' (cur' & C' & Hd & ->) V']; subst.
  destruct (P 0 _ _ eq_refl eq_refl) as (l0 & E0 & K0 & T0). destruct (P 1 _ _ eq_refl eq_refl) as (l1 & E1 & K1 & T1). destruct (P 2 _ _ eq_refl eq_refl) as (l2 & E2 & K2 & T2).
  destruct cur as [|? [|? [|? cur]]]; try done. injection E0 as ->. injection E1 as ->. injection E2 as ->.
  assert (Ec : cur' = bf ++ l0 :: l1 :: l2 :: cur).
  { destruct cur' as [|y cur']; [cbn in Hd; cbn in Hn; congruence|]. assert (y = l0) as -> by (cbn in *; congruence). apply (chain_unique h' _ _ l0 C' Cb); [by left|apply elem_of_app; right; by left]. }
  assert (bf = []) as ->.
  { destruct bf as [|z bf]; [done|]. rewrite Ec in Hd. cbn in Hd, Hn. exfalso. apply chain_NoDup, NoDup_cons in Cb as [Cb _]. apply Cb. assert (z = l0) as -> by congruence. apply elem_of_app. right. by left. }
  subst cur'. cbn [app map]. exists (scope_line (Some sc)), (line_of h' (Some l0)), (line_of h' (Some l1)), (line_of h' (Some l2)), (map (pay h') cur), vs'.
  unfold pay at 1 2 3. by rewrite K0, K1, K2, T0, T1, T2.
Qed.
(** What the getters say about a scope with such a header. *)
Definition named (kw : str) (h : heap) (sc : scope) (name : str) : Prop :=
  (kw = $"func" -> get_func_name h sc = Ok (name, true)) /\ (kw = $"type" -> get_type_name h sc = Ok (name, true)).
Lemma view_named kw kk nk h sc ln m0 m1 m2 name b :
  (kw, kk, nk) ∈ [($"func", KFunc, KFuncName); ($"type", KType, KTypeName)] ->
  viewed h sc (ln, kw, (m0, kw, kk) :: (m1, [c_sp], KSpace) :: (m2, name, nk) :: b) -> named kw h sc name.
Proof.
  intros Hk (cur & C & Hd & E). injection E as Eln Ek Em. destruct cur as [|l0 [|l1 [|l2 cur]]]; try discriminate Em. cbn [map] in Em. unfold pay in Em. injection Em as _ T0 K0 _ T1 K1 _ T2 K2 _.
  assert (SN : scope_nodes h sc (l0 :: l1 :: l2 :: cur)) by (split; [done|by exists []]).
  assert (Fk : forall l, kk <> nk -> KSpace <> nk -> first_of_kind h (l0 :: l1 :: l2 :: cur) nk l -> l = l2).
  { intros l N1 N2 (xs & ys & Ex & Kl & Nx). destruct xs as [|x0 [|x1 [|x2 xs]]]; cbn [app] in Ex.
    - injection Ex as <- _. congruence.
    - injection Ex as _ <- _. congruence.
    - injection Ex as _ _ <- _. done.
    - injection Ex as -> -> -> _. exfalso. apply (Nx x2); [right; right; by left|congruence]. }
  assert (Nn : ~ none_of_kind h (l0 :: l1 :: l2 :: cur) nk) by (intros N; apply (N l2); [right; right; by left|done]).
  apply elem_of_cons in Hk as [Hk|Hk]; [|apply elem_of_cons in Hk as [Hk|Hk]; [|by apply elem_of_nil in Hk]]; injection Hk as -> -> ->.
  - split; [|discriminate]. intros _. destruct (C44_func_name h sc _ (eq_sym Ek) SN) as [(l & F & ->)|[N _]]; [|done]. rewrite (Fk l ltac:(discriminate) ltac:(discriminate) F). congruence.
  - split; [discriminate|]. intros _. destruct (C44_type_name h sc _ (eq_sym Ek) SN) as [(l & F & ->)|[N _]]; [|done]. rewrite (Fk l ltac:(discriminate) ltac:(discriminate) F). congruence.
Qed.
Lemma view_text_down d v : view_text (down d v) = view_text v.
Proof. unfold view_text, down. cbn [snd]. by rewrite tok_texts_down. Qed.
Lemma stacked_text d files vss : Forall2 (fun f vs => concat (map view_text vs) = f) files vss -> concat (map view_text (stacked d files vss)) = concat files.
Proof.
  intros F. revert d. induction F as [|f vs files vss E _ IH]; intros d; [done|]. cbn [stacked concat]. rewrite map_app, concat_app, IH. f_equal.
  rewrite map_map. rewrite <- E. f_equal. apply map_ext. intros v. apply view_text_down.
Qed.
Lemma views_of h scs lss vs : document h (map Some scs) (map (pair []) lss) -> Forall2 (fun ls v => map (pay h) ls = snd v) lss vs ->
  Forall2 (fun sc v => fst v = (scope_line (Some sc), scope_kind_of (Some sc))) scs vs -> Forall2 (viewed h) scs vs.
Proof.
  intros (_ & F & _) P K. revert lss F P. induction K as [|sc v scs vs K _ IH]; intros lss F P; [constructor|].
  destruct lss as [|ls lss]; [inversion F|]. cbn [map] in F. apply Forall2_cons in F as [(s' & Es & Eh & Ne & C) F]. injection Es as <-. apply Forall2_cons in P as [P1 P2]. cbn [fst snd app] in *.
  constructor; [|by apply (IH lss)]. exists ls. split; [done|]. split; [done|]. destruct v as [[? ?] ?]. cbn [fst snd] in *. congruence.
Qed.
Lemma all_parse ord h fs : any_order ord -> SpecNode.wf h -> exists vss, Forall2 (parses_to ord h 0) fs vss.
Proof. intros O W. induction fs as [|f fs [vss IH]]; [exists []; constructor|]. destruct (parses_total ord h 0 f O W) as [v V]. exists (v :: vss). by constructor. Qed.

Lemma rename_any kw kk nk ord h pre post name new rest h1 scs : any_order ord -> SpecNode.wf h ->
  (kw, kk, nk) ∈ [($"func", KFunc, KFuncName); ($"type", KType, KTypeName)] ->
  plain_word name -> kind_new name = KRaw -> plain_word new -> kind_new new = KRaw -> word_ends rest ->
  let decl w := kw ++ $" " ++ w ++ rest in
  Forall (fun f => complete f /\ begins_scope f) (pre ++ decl name :: decl new :: post) -> Forall reproduced (pre ++ decl name :: post) ->
  parse_scope ord h 0 (concat (pre ++ decl name :: post)) = Ok (h1, scs) ->
  exists i sc l h2 above line before m after below, scs !! i = Some sc /\ i = length above /\
    Forall2 (viewed h1) scs (above ++ (line, kw, before ++ (m, name, nk) :: after) :: below) /\
    named kw h1 sc name /\
    exec h1 (OSetText (Some l) new) = Ok (h2, []) /\
    Forall2 (viewed h2) scs (above ++ (line, kw, before ++ (m, new, nk) :: after) :: below) /\
    named kw h2 sc new /\
    save_text h2 (map Some scs) = Ok (concat (pre ++ decl new :: post)) /\
    forall ord' h' h3 scs', any_order ord' -> SpecNode.wf h' -> parse_scope ord' h' 0 (concat (pre ++ decl new :: post)) = Ok (h3, scs') ->
      exists sc', scs' !! i = Some sc' /\ named kw h3 sc' new.
Proof.
  intros O W Hk P1 K1 P2 K2 We decl Fc Fr E.
  destruct (C65_parsed ord h 0 _ h1 scs O W E) as (lss & D).
  destruct (parses_total ord h 0 (concat (pre ++ decl name :: post)) O W) as [vs (h1' & scs1 & E' & V)]. rewrite E in E'. injection E' as <- <-.
  destruct (all_parse ord h pre O W) as [va Fa], (all_parse ord h post O W) as [vb Fb]. destruct (parses_total ord h 0 (decl name) O W) as [o Po].
  pose proof (Forall2_length _ _ _ Fa) as La.
  apply Forall_app in Fc as [Fc1 Fc2]. apply Forall_cons in Fc2 as [Fcn Fc2]. apply Forall_cons in Fc2 as [Fcw Fc3].
  assert (Ev : vs = stacked 0 (pre ++ decl name :: post) (va ++ o :: vb)).
  { apply (C60_declarations ord h ord h 0); try done; [by apply Forall_app; split; [|constructor]|by apply Forall2_app; [|constructor]|by exists h1, scs]. }
  rewrite stacked_app in Ev by done. cbn [stacked] in Ev. rewrite Z.add_0_l in Ev. set (dn := count_nl (concat pre)) in *.
  destruct (header_view kw kk nk ord h name rest o O W Hk P1 K1 We Po) as (ln & m0 & m1 & m2 & b & o' & Eo).
  set (u := stacked 0 pre va) in *. set (w := map (down dn) o' ++ stacked (dn + count_nl (decl name)) post vb).
  set (bs := [((m0 + dn)%Z, kw, kk); ((m1 + dn)%Z, [c_sp], KSpace)]). set (af := map (down_tok dn) b).
  assert (Ev2 : vs = u ++ ((ln + dn)%Z, kw, bs ++ ((m2 + dn)%Z, name, nk) :: af) :: w) by (rewrite Ev, Eo; done). clear Ev. subst vs.
  apply Forall_app in Fr as [Fr1 Fr2]. apply Forall_cons in Fr2 as [Frn Fr3].
  assert (Tu : concat (map view_text u) = concat pre).
  { apply stacked_text. clear -Fa Fr1 O W. induction Fa as [|f v fs vss Pf _ IH]; [constructor|]. inversion_clear Fr1 as [|? ? Q1 Q2]. constructor; [|by apply IH]. by apply (Q1 ord h v O W). }
  assert (Tw : concat (tok_texts af) ++ concat (map view_text w) = rest ++ concat post).
  { unfold w. rewrite map_app, concat_app, app_assoc. f_equal.
    - specialize (Frn ord h o O W Po). rewrite Eo in Frn. cbn [map concat] in Frn. unfold view_text at 1 in Frn. cbn [snd tok_texts map concat fst] in Frn. unfold decl in Frn.
      rewrite <- !app_assoc in Frn. apply app_inv_head in Frn. cbn [app] in Frn. injection Frn as Frn. rewrite <- ?app_assoc in Frn. apply app_inv_head in Frn. unfold af.
      rewrite tok_texts_down. unfold tok_texts. rewrite <- Frn. f_equal. rewrite map_map. f_equal. apply map_ext. intros v. apply view_text_down.
    - apply stacked_text. clear -Fb Fr3 O W. induction Fb as [|f v fs vss Pf _ IH]; [constructor|]. inversion_clear Fr3 as [|? ? Q1 Q2]. constructor; [|by apply IH]. by apply (Q1 ord h v O W). }
  pose proof (sheet_views h1 scs lss _ D V) as Sv.
  pose proof V as V'. apply Forall2_app_inv_r in V' as (s1 & s2 & V1 & V2 & Es). apply Forall2_cons_inv_r in V2 as (sc & s3 & Vs & V3 & ->).
  pose proof Sv as Sv'. apply Forall2_app_inv_r in Sv' as (A & B0 & S1 & S2 & El). apply Forall2_cons_inv_r in S2 as (ls & B & Ss & S3 & ->). cbn [snd] in Ss.
  destruct ls as [|l0 [|l1 [|l2 lt]]]; try discriminate Ss. cbn [map] in Ss. pose proof Ss as Ss0. unfold bs in Ss. cbn [app] in Ss. injection Ss as _ T0 _ _ T1 _ Q1 Q2 Q3 Qt.
  pose proof D as D0. rewrite El, map_app in D0. cbn [map] in D0.
  destruct (C65_edit h1 (map Some scs) (map (pair []) A) ([], [l0; l1] ++ l2 :: lt) (map (pair []) B) (OSetText (Some l2) new) _ _ D0 (ed_set_text h1 _ [] [l0; l1] l2 lt new)) as (h2 & rs & Ex & D2 & Sx).
  assert (Vl : valid h1 l2). { destruct D0 as (_ & F & _). apply Forall2_app_inv_r in F as (? & ? & _ & F & _). apply Forall2_cons_inv_r in F as (? & ? & (? & _ & _ & _ & C) & _). eapply valid_chain; [exact C|]. cbn [fst snd app]. right. right. by left. }
  cbn [exec] in Ex. injection Ex as <- <-. set (h2 := set_text h1 (Some l2) new) in *.
  assert (Nd : NoDup (concat lss)). { destruct D as (_ & _ & N). by rewrite nodes_of_pair in N. }
  rewrite El, concat_app in Nd. cbn [concat] in Nd. apply NoDup_app in Nd as (_ & Nd1 & Nd2). apply NoDup_app in Nd2 as (Nd2 & Nd3 & _).
  assert (Py : forall x, x <> l2 -> pay h2 x = pay h1 x).
  { intros x Nx. unfold pay, h2. rewrite line_set_text, kind_set_text, text_set_text by done. rewrite decide_False by done. done. }
  assert (Pl : pay h2 l2 = ((m2 + dn)%Z, new, nk)).
  { unfold pay, h2. rewrite line_set_text, kind_set_text, text_set_text by done. rewrite decide_True by done. by rewrite Q1, Q3. }
  assert (Keep : forall xs vs', (forall x, x ∈ concat xs -> x <> l2) -> Forall2 (fun ls v => map (pay h1) ls = snd v) xs vs' -> Forall2 (fun ls (v : scope_view) => map (pay h2) ls = snd v) xs vs').
  { intros xs vs' N F. induction F as [|ls v xs vs' Ef _ IH]; [constructor|]. cbn [concat] in N. constructor.
    - rewrite <- Ef. apply map_ext_in. intros x Hx. apply Py, N, elem_of_app. left. by apply elem_of_list_In.
    - apply IH. intros x Hx. apply N, elem_of_app. by right. }
  exists (length u), sc, l2, h2, u, (ln + dn)%Z, bs, (m2 + dn)%Z, af, w.
  split; [rewrite Es; apply list_lookup_middle; symmetry; by eapply Forall2_length|]. split; [done|]. split; [done|]. split; [by apply (view_named kw kk nk h1 sc _ _ _ _ name af Hk Vs)|]. split; [done|].
  assert (V2' : Forall2 (viewed h2) scs (u ++ ((ln + dn)%Z, kw, bs ++ ((m2 + dn)%Z, new, nk) :: af) :: w)).
  { apply (views_of h2 scs lss).
    - rewrite El, map_app. cbn [map]. exact D2.
    - rewrite El. apply Forall2_app; [|constructor].
      + apply Keep; [|done]. intros x Hx ->. apply (Nd1 l2 Hx). apply elem_of_app. left. right. right. by left.
      + cbn [map snd]. rewrite Pl. apply NoDup_cons in Nd2 as [N0 Nd2]. apply NoDup_cons in Nd2 as [N1 Nd2]. apply NoDup_cons in Nd2 as [N2 Nd2].
        rewrite (Py l0) by (intros ->; apply N0; right; by left). rewrite (Py l1) by (intros ->; apply N1; by left).
        assert (Z0 : pay h1 l0 = ((m0 + dn)%Z, kw, kk)) by (clear -Ss0; unfold bs in Ss0; cbn [app] in Ss0; congruence). assert (Z1 : pay h1 l1 = ((m1 + dn)%Z, [c_sp], KSpace)) by (clear -Ss0; unfold bs in Ss0; cbn [app] in Ss0; congruence). rewrite Z0, Z1. unfold bs. cbn [app]. f_equal. f_equal. f_equal. rewrite <- Qt. apply map_ext_in. intros x Hx. apply Py. intros ->. apply N2. by apply elem_of_list_In.
      + apply Keep; [|done]. intros x Hx ->. apply (Nd3 l2); [right; right; by left|done].
    - rewrite Es. apply Forall2_app; [|constructor].
      + clear -V1. induction V1 as [|sc v scs vs (cur & _ & _ & ->) _ IH]; constructor; done.
      + destruct Vs as (cur & _ & _ & Ev). injection Ev as -> -> _. done.
      + clear -V3. induction V3 as [|sc v scs vs (cur & _ & _ & ->) _ IH]; constructor; done. }
  split; [done|]. split; [|split].
  - rewrite Es in V2'. apply Forall2_app_inv in V2' as [_ V2']; [|by eapply Forall2_length]. apply Forall2_cons in V2' as [V2' _]. by apply (view_named kw kk nk h2 sc _ _ _ _ new af Hk V2').
  - transitivity (save_text (alter (with_text new) l2 h1) (map Some scs)); [done|]. rewrite Sx. f_equal. rewrite (written_views h1 A u S1), (written_views h1 B w S3), Tu. rewrite concat_app. f_equal. cbn [concat]. unfold decl.
    rewrite <- !app_assoc. rewrite !text_at_cons, T0, T1. rewrite (text_at_pay h1 lt), Qt, Tw. cbn [text_at map concat]. rewrite app_nil_r. by rewrite <- ?app_assoc.
  - intros ord' h' h3 scs' O' W' E3. destruct (parses_total ord' h' 0 (concat (pre ++ decl new :: post)) O' W') as [vs3 (h3' & scs3 & E3' & V4)]. rewrite E3 in E3'. injection E3' as <- <-.
    destruct (parses_total ord h 0 (decl new) O W) as [o2 Po2].
    assert (Ev : vs3 = stacked 0 (pre ++ decl new :: post) (va ++ o2 :: vb)).
    { apply (C60_declarations ord h ord' h' 0); try done; [by apply Forall_app; split; [|constructor]|by apply Forall2_app; [|constructor]|by exists h3, scs']. }
    rewrite stacked_app in Ev by done. cbn [stacked] in Ev. fold u in Ev.
    destruct (header_view kw kk nk ord h new rest o2 O W Hk P2 K2 We Po2) as (ln' & n0 & n1 & n2 & b2 & o2' & Eo2). rewrite Eo2 in Ev. rewrite Ev in V4.
    apply Forall2_app_inv_r in V4 as (t1 & t2 & V5 & V6 & ->). apply Forall2_cons_inv_r in V6 as (sc' & t3 & Vs' & _ & ->).
    exists sc'. split; [apply list_lookup_middle; symmetry; by eapply Forall2_length|]. unfold down in Vs'. cbn [fst snd map down_tok] in Vs'. by apply (view_named kw kk nk h3 sc' _ _ _ _ new _ Hk Vs').
Qed.

(** ** C68 *)
(** Renaming a function (not a method): a file of complete declarations, one of
    them a function called [name]. Parsed, there is a scope whose GetFuncName is
    [name] and in it one node, such that SetText([new]) on that node makes
    GetFuncName return [new], changes nothing else that is visible in any scope,
    and Save writes the file with that one declaration renamed; parsing that file
    again finds [new] in the scope at the same position. *)
Theorem C68_rename_func : forall ord h pre post name new rest h1 scs, any_order ord -> SpecNode.wf h ->
  plain_word name -> kind_new name = KRaw -> plain_word new -> kind_new new = KRaw -> word_ends rest ->
  let decl w := $"func " ++ w ++ rest in
  Forall (fun f => complete f /\ begins_scope f) (pre ++ decl name :: decl new :: post) -> Forall reproduced (pre ++ decl name :: post) ->
  parse_scope ord h 0 (concat (pre ++ decl name :: post)) = Ok (h1, scs) ->
  exists i sc l h2 above line before m after below, scs !! i = Some sc /\ i = length above /\
    Forall2 (viewed h1) scs (above ++ (line, $"func", before ++ (m, name, KFuncName) :: after) :: below) /\
    get_func_name h1 sc = Ok (name, true) /\
    exec h1 (OSetText (Some l) new) = Ok (h2, []) /\
    Forall2 (viewed h2) scs (above ++ (line, $"func", before ++ (m, new, KFuncName) :: after) :: below) /\
    get_func_name h2 sc = Ok (new, true) /\
    save_text h2 (map Some scs) = Ok (concat (pre ++ decl new :: post)) /\
    forall ord' h' h3 scs', any_order ord' -> SpecNode.wf h' -> parse_scope ord' h' 0 (concat (pre ++ decl new :: post)) = Ok (h3, scs') ->
      exists sc', scs' !! i = Some sc' /\ get_func_name h3 sc' = Ok (new, true).
Proof.
  intros ord h pre post name new rest h1 scs O W P1 K1 P2 K2 We decl Fc Fr E.
  destruct (rename_any $"func" KFunc KFuncName ord h pre post name new rest h1 scs O W ltac:(by left) P1 K1 P2 K2 We Fc Fr E)
    as (i & sc & l & h2 & ab & ln & bf & m & af & be & Hi & Hl & V1 & (N1 & _) & Ex & V2 & (N2 & _) & Sv & Re).
  exists i, sc, l, h2, ab, ln, bf, m, af, be. repeat (split; [by auto|]). intros ord' h' h3 scs' O' W' E'.
  destruct (Re ord' h' h3 scs' O' W' E') as (sc' & ? & N & _). eauto.
Qed.
(** The same for a type. *)
Theorem C68_rename_type : forall ord h pre post name new rest h1 scs, any_order ord -> SpecNode.wf h ->
  plain_word name -> kind_new name = KRaw -> plain_word new -> kind_new new = KRaw -> word_ends rest ->
  let decl w := $"type " ++ w ++ rest in
  Forall (fun f => complete f /\ begins_scope f) (pre ++ decl name :: decl new :: post) -> Forall reproduced (pre ++ decl name :: post) ->
  parse_scope ord h 0 (concat (pre ++ decl name :: post)) = Ok (h1, scs) ->
  exists i sc l h2 above line before m after below, scs !! i = Some sc /\ i = length above /\
    Forall2 (viewed h1) scs (above ++ (line, $"type", before ++ (m, name, KTypeName) :: after) :: below) /\
    get_type_name h1 sc = Ok (name, true) /\
    exec h1 (OSetText (Some l) new) = Ok (h2, []) /\
    Forall2 (viewed h2) scs (above ++ (line, $"type", before ++ (m, new, KTypeName) :: after) :: below) /\
    get_type_name h2 sc = Ok (new, true) /\
    save_text h2 (map Some scs) = Ok (concat (pre ++ decl new :: post)) /\
    forall ord' h' h3 scs', any_order ord' -> SpecNode.wf h' -> parse_scope ord' h' 0 (concat (pre ++ decl new :: post)) = Ok (h3, scs') ->
      exists sc', scs' !! i = Some sc' /\ get_type_name h3 sc' = Ok (new, true).
Proof.
  intros ord h pre post name new rest h1 scs O W P1 K1 P2 K2 We decl Fc Fr E.
  destruct (rename_any $"type" KType KTypeName ord h pre post name new rest h1 scs O W ltac:(right; by left) P1 K1 P2 K2 We Fc Fr E)
    as (i & sc & l & h2 & ab & ln & bf & m & af & be & Hi & Hl & V1 & (_ & N1) & Ex & V2 & (_ & N2) & Sv & Re).
  exists i, sc, l, h2, ab, ln, bf, m, af, be. repeat (split; [by auto|]). intros ord' h' h3 scs' O' W' E'.
  destruct (Re ord' h' h3 scs' O' W' E') as (sc' & ? & _ & N). eauto.
Qed.
Lemma text_at_nil_app h s : text_at h [] ++ s = s.
Proof. done. Qed.
(** Which declarations are reproduced: those that begin with a scope and whose
    scopes keep their text, in the sense of C49. *)
Lemma pieces_parts h prev ls g gs : pieces h prev ls g gs -> parts prev (map (pay h) ls) (map (pay h) g) (map (map (pay h)) gs).
Proof. induction 1; cbn [map]; [constructor| |]; constructor; done. Qed.
Lemma parts_det prev ts g gs g' gs' : parts prev ts g gs -> parts prev ts g' gs' -> g = g' /\ gs = gs'.
Proof.
  intros H. revert g' gs'. induction H as [prev|prev t ts g gs N H IH|prev t ts g gs N H IH]; intros g' gs' H'; inversion H'; subst; try done.
  - by destruct (IH _ _ ltac:(eassumption)) as [-> ->].
  - by destruct (IH _ _ ltac:(eassumption)) as [-> ->].
Qed.
Theorem C68_reproduced : forall text ts gs, tokens text ts -> parts (-1) ts [] gs -> Forall (fun g => keeps (map snd g)) gs -> reproduced text.
Proof.
  intros text ts gs T Hc Hk ord h vs O W (h' & scs & E & V).
  destruct (C29_tokeniser_terminates ord h text O W) as (h1 & ls & Tk & _). pose proof (tokenised_tokens ord h text h1 ls O W Tk) as T'.
  assert (ts = map (pay h1) ls) as -> by (by eapply tokens_unique).
  destruct (pieces_total h1 ls (-1)) as (g & gs' & HP). destruct (parts_det _ _ _ _ _ _ Hc (pieces_parts _ _ _ _ _ HP)) as [Eg ->]. symmetry in Eg. apply map_eq_nil in Eg as ->.
  destruct (C49_text_of_parsed ord h 0 text h1 ls h' scs [] gs' O W Tk E HP) as (lss & A & ->).
  { rewrite Forall_map in Hk. eapply Forall_impl; [exact Hk|]. cbn beta. intros gr Kg. rewrite map_map in Kg. exact Kg. }
  rewrite text_at_nil_app. f_equal. clear -A V. revert lss A. induction V as [|sc v scs vs (cur & C & Hd & ->) _ IH]; intros lss A; inversion A as [|? ls ? lss' (s' & Es & Hn & bf & C2) A']; subst; [done|]. injection Es as <-.
  cbn [map]. f_equal; [|by apply IH]. unfold view_text. cbn [snd]. rewrite <- text_at_pay. f_equal.
  destruct ls as [|x ls]; [by destruct cur; cbn in *; congruence|]. destruct cur as [|y cur]; [cbn in *; congruence|]. assert (y = x) as -> by (cbn in *; congruence).
  pose proof (chain_unique h' _ _ x C C2 ltac:(by left) ltac:(apply elem_of_app; right; by left)) as Eq.
  destruct bf as [|z bf]; [exact Eq|]. exfalso. cbn in Eq. injection Eq as <- _. apply chain_NoDup, NoDup_cons in C2 as [C2 _]. apply C2, elem_of_app. right. by left.
Qed.

(** The hypotheses are met, for example, by a function and a type. *)
Fixpoint cut_parts (prev : Z) (ts : list (Z * str * kind)) : list (Z * str * kind) * list (list (Z * str * kind)) :=
  match ts with
  | [] => ([], [])
  | t :: ts' =>
    let '(g, gs) := cut_parts (fst (fst t)) ts' in
    if negb (bool_decide (fst (fst t) = prev)) && existsb (fun k => bool_decide (k `prefix_of` snd (fst t))) scope_keywords
    then ([], (t :: g) :: gs) else (t :: g, gs)
  end.
Lemma cut_parts_ok prev ts : parts prev ts (fst (cut_parts prev ts)) (snd (cut_parts prev ts)).
Proof.
  revert prev. induction ts as [|l ls IH]; intros prev; [constructor|]. cbn [cut_parts]. specialize (IH (fst (fst l))).
  destruct (cut_parts (fst (fst l)) ls) as [g gs]. cbn [fst snd] in IH. destruct (_ && _) eqn:E; cbn [fst snd].
  - constructor; [|done]. apply andb_true_iff in E as [E1 E2]. apply negb_true_iff, bool_decide_eq_false in E1. split; [done|].
    apply existsb_exists in E2 as (k & Hk & E2). exists k. split; [by apply elem_of_list_In|]. by apply bool_decide_eq_true in E2.
  - constructor; [|done]. intros [N (k & Hk & P)]. apply andb_false_iff in E as [E|E].
    + apply negb_false_iff, bool_decide_eq_true in E. done.
    + rewrite <- not_true_iff_false, existsb_exists in E. apply E. exists k. split; [by apply elem_of_list_In|by apply bool_decide_eq_true].
Qed.
Definition keeps_check (ks : list kind) : bool :=
  match ks with
  | [] => true
  | k :: _ =>
    if kind_eqb k KFunc then comments_check [KNewLine; KSpace; KCurlyL] ks
    else if kind_eqb k KType then negb (mem_kind KParenL ks) && negb (mem_kind KFunc ks) && comments_check [KNewLine] ks else true
  end.
Lemma keeps_check_ok ks : keeps_check ks = true -> keeps ks.
Proof.
  destruct ks as [|k ks]; [intros _; by apply kp_other|]. cbn [keeps_check]. destruct (kind_eqb k KFunc) eqn:E1.
  - apply kind_eqb_true in E1 as ->. intros H. by apply kp_func, comments_check_ok.
  - apply kind_eqb_false in E1. destruct (kind_eqb k KType) eqn:E2.
    + apply kind_eqb_true in E2 as ->. rewrite !andb_true_iff, !negb_true_iff. intros [[H1 H2] H3]. by apply kp_plain, simple_check.
    + apply kind_eqb_false in E2. intros _. apply kp_other; cbn; congruence.
Qed.
Definition decl_check (ts : list (Z * str * kind)) : bool :=
  match ts, last ts with
  | t :: _, Some u =>
    bool_decide (snd (fst u) = [c_nl]) && bool_decide (open_brackets [] (tok_texts ts) = []) &&
    existsb (fun k => bool_decide (snd (fst t) = k)) [$"func"; $"type"; $"package"; $"var"] &&
    match cut_parts (-1) ts with ([], gs) => forallb (fun g => keeps_check (map snd g)) gs | _ => false end
  | _, _ => false
  end.
Lemma decl_checked text ts : tokens text ts -> decl_check ts = true -> (complete text /\ begins_scope text) /\ reproduced text.
Proof.
  intros T H. destruct ts as [|t ts]; [done|]. cbn [decl_check] in H. destruct (last (t :: ts)) as [u|] eqn:L; [|done]. rewrite !andb_true_iff, !bool_decide_eq_true in H. destruct H as [[[H1 H2] H3] H4].
  pose proof (cut_parts_ok (-1) (t :: ts)) as P. destruct (cut_parts (-1) (t :: ts)) as [[|] gs]; [|done]. cbn [fst snd] in P. split; [split|].
  - exists (t :: ts), u. done.
  - exists (t :: ts), t, ts. split; [done|]. split; [done|]. apply existsb_exists in H3 as (k & Hk & E%bool_decide_eq_true). rewrite E. split.
    + exists k. split; [|done]. repeat (destruct Hk as [<-|Hk]; [eapply bool_decide_unpack; vm_compute; exact I|]). done.
    + unfold tok_texts. cbn [map]. rewrite E. repeat (destruct Hk as [<-|Hk]; [apply word_first; [|discriminate|discriminate]; split; [|discriminate]; intros [d [q F]]; destruct d; discriminate F|]). done.
  - eapply C68_reproduced; [exact T|exact P|]. rewrite Forall_forall. intros g Hg. apply keeps_check_ok. rewrite forallb_forall in H4. apply H4. by apply elem_of_list_In.
Qed.
Definition ex_rest : str := lines ["(x int) {"; " return // {"; "}"]%string.
Example ex_C68 : let decl w := $"func " ++ w ++ ex_rest in let pre := [$"package p" ++ [c_nl]] in let post := [decl_t] in
  plain_word $"f" /\ kind_new $"f" = KRaw /\ plain_word $"better" /\ kind_new $"better" = KRaw /\ word_ends ex_rest /\
  Forall (fun f => complete f /\ begins_scope f) (pre ++ decl $"f" :: decl $"better" :: post) /\ Forall reproduced (pre ++ decl $"f" :: post).
Proof.
  assert (D : forall text h n, extract src_ord [] text = Ok (h, head (seq 0 n)) -> chain h (seq 0 n) -> decl_check (map (pay h) (seq 0 n)) = true -> (complete text /\ begins_scope text) /\ reproduced text).
  { intros text h n E C H. eapply decl_checked; [by eapply tokens_of|exact H]. }
  cbn zeta. cbn [app].
  assert (D1 := D ($"package p" ++ [c_nl]) _ 4 ltac:(vm_compute; reflexivity) ltac:(vm_compute; repeat split; lia) ltac:(vm_compute; reflexivity)).
  assert (D2 := D ($"func " ++ $"f" ++ ex_rest) _ 18 ltac:(vm_compute; reflexivity) ltac:(vm_compute; repeat split; lia) ltac:(vm_compute; reflexivity)).
  assert (D3 := D ($"func " ++ $"better" ++ ex_rest) _ 18 ltac:(vm_compute; reflexivity) ltac:(vm_compute; repeat split; lia) ltac:(vm_compute; reflexivity)).
  assert (D4 := D decl_t _ 16 ltac:(vm_compute; reflexivity) ltac:(vm_compute; repeat split; lia) ltac:(vm_compute; reflexivity)).
  split; [by apply plain_check|]. split; [reflexivity|]. split; [by apply plain_check|]. split; [reflexivity|]. split; [apply ends_sep, sep_in; reflexivity|].
  destruct D1 as [A1 B1], D2 as [A2 B2], D3 as [A3 B3], D4 as [A4 B4].
  split; repeat (apply Forall_cons; split; [assumption|]); apply Forall_nil; exact I.
Qed.
